(** Reading JSON with white space. *)
From Verif Require Import Base StdStr Data Json DataDefs LayoutDefs.
From Verif Require Import BaseFacts StdStrFacts DataFacts JsonFacts.

Definition elem (v : data) (t : bytes) : Prop := exists w1 t0 w2, white w1 /\ white w2 /\ laid v t0 /\ t = w1 ++ t0 ++ w2.
Definition entry_text (kv : bytes * data) (t : bytes) : Prop := exists w1 w2 w3 w4 t0, white w1 /\ white w2 /\ white w3 /\ white w4 /\ laid (snd kv) t0 /\
  t = w1 ++ json_string (fst kv) ++ w2 ++ [58] ++ w3 ++ t0 ++ w4.
Lemma laid_arr a t : laid (VArr a) t <-> exists w ts, white w /\ t = [91] ++ w ++ join [44] ts ++ [93] /\ Forall2 elem a ts.
Proof.
  cbn [laid]. assert (X : forall ts, (fix go (a : list data) (ts : list bytes) : Prop := match a, ts with | [], [] => True | v :: a, t :: ts => (exists w1 t0 w2, white w1 /\ white w2 /\ laid v t0 /\ t = w1 ++ t0 ++ w2) /\ go a ts | _, _ => False end) a ts <-> Forall2 elem a ts).
  { induction a as [|v a IH]; intros [|u ts].
    - split; constructor.
    - split; intros H; [contradiction|inversion H].
    - split; intros H; [contradiction|inversion H].
    - split; intros H; [destruct H as [H1 H2]; constructor; [exact H1|apply IH; exact H2]|inversion H; subst; split; [assumption|apply IH; assumption]]. }
  split; intros (w & ts & A & B & D); exists w, ts; (split; [exact A|split; [exact B|apply X; exact D]]).
Qed.
Lemma laid_obj o t : laid (VObj o) t <-> exists w ts, white w /\ t = [123] ++ w ++ join [44] ts ++ [125] /\ Forall2 entry_text o ts.
Proof.
  cbn [laid]. assert (X : forall ts, (fix go (o : list (bytes * data)) (ts : list bytes) : Prop := match o, ts with | [], [] => True | (k, v) :: o, t :: ts => (exists w1 w2 w3 w4 t0, white w1 /\ white w2 /\ white w3 /\ white w4 /\ laid v t0 /\ t = w1 ++ json_string k ++ w2 ++ [58] ++ w3 ++ t0 ++ w4) /\ go o ts | _, _ => False end) o ts <-> Forall2 entry_text o ts).
  { induction o as [|[k v] o IH]; intros [|u ts].
    - split; constructor.
    - split; intros H; [contradiction|inversion H].
    - split; intros H; [contradiction|inversion H].
    - split; intros H; [destruct H as [H1 H2]; constructor; [exact H1|apply IH; exact H2]|inversion H; subst; split; [assumption|apply IH; assumption]]. }
  split; intros (w & ts & A & B & D); exists w, ts; (split; [exact A|split; [exact B|apply X; exact D]]).
Qed.
Lemma skip_white w s : white w -> skip_ws (w ++ s) = skip_ws s.
Proof.
  induction w as [|c w IH]; intros H; [reflexivity|]. cbn [app skip_ws]. replace ((c =? 32) || (c =? 10) || (c =? 9) || (c =? 13)) with true by (symmetry; destruct (H c (or_introl eq_refl)) as [->|[->|[->| ->]]]; reflexivity).
  apply IH. intros x I. apply H. right. exact I.
Qed.
Section F.
Context `{F : Floats}.
Lemma read_white f d w s : white w -> read_value f d (w ++ s) = read_value f d s.
Proof. intros W. destruct f as [|f]; [reflexivity|]. cbn [read_value]. rewrite skip_white by exact W. reflexivity. Qed.
Lemma elems_white f d w s : white w -> read_elems f d (w ++ s) = read_elems f d s.
Proof. intros W. destruct f as [|f]; [reflexivity|]. cbn [read_elems]. rewrite read_white by exact W. reflexivity. Qed.
Lemma members_white f d w s acc : white w -> read_members f d (w ++ s) acc = read_members f d s acc.
Proof. intros W. destruct f as [|f]; [reflexivity|]. cbn [read_members]. rewrite skip_white by exact W. reflexivity. Qed.
Lemma stop_white w c r : white w -> c = 44 \/ c = 93 \/ c = 125 -> num_stop (w ++ c :: r).
Proof.
  intros W H. destruct w as [|x w]; cbn [app num_stop]; [destruct H as [->|[->| ->]]; repeat split; try discriminate; intros [A B]; apply A + (apply B); reflexivity|].
  destruct (W x (or_introl eq_refl)) as [->|[->|[->| ->]]]; (split; [intros [A B]; apply A; reflexivity|]; repeat split; discriminate).
Qed.
Definition lreads (v : data) : Prop := forall t, laid v t -> forall f d rest, (2 * length t <= f)%nat -> depth v < d -> num_stop rest -> read_value f d (t ++ rest) = Some (tree v, rest).
Lemma laid_elems a ts : a <> [] -> Forall lreads a -> Forall2 elem a ts -> forall f d rest,
  (2 * length (join [44%N] ts) + 1 <= f)%nat -> (forall v, In v a -> depth v < d) ->
  read_elems f d (join [44] ts ++ 93 :: rest) = Some (map tree a, rest).
Proof.
  revert ts. induction a as [|v a IH]; [congruence|]. intros ts _ Hr He f d rest Hf Hd. inversion Hr as [|? ? Rv Ra]; subst. inversion He as [|? t ? ts' Ev Ea]; subst. destruct f as [|f]; [Lia.lia|].
  destruct Ev as (w1 & t0 & w2 & W1 & W2 & L & ->). destruct a as [|x a].
  - inversion Ea; subst. cbn [map join] in *. rewrite !app_length in Hf. rewrite <- !app_assoc. cbn [read_elems]. rewrite read_white by exact W1. rewrite (Rv t0 L); [|Lia.lia|apply Hd; left; auto|apply stop_white; auto].
    rewrite skip_white by exact W2. rewrite skip_ws_head by lia. reflexivity.
  - inversion Ea as [|? u ? us Ex Eus]; subst. change (join [44] ((w1 ++ t0 ++ w2) :: u :: us)) with ((w1 ++ t0 ++ w2) ++ [44] ++ join [44] (u :: us)) in *. rewrite !app_length in Hf. cbn [length] in Hf. rewrite <- !app_assoc. cbn [read_elems]. rewrite read_white by exact W1. rewrite (Rv t0 L); [|Lia.lia|apply Hd; left; auto|apply stop_white; auto].
    rewrite skip_white by exact W2. cbn [app]. rewrite skip_ws_head by lia. rewrite IH; [reflexivity|discriminate|auto|auto|Lia.lia|intros; apply Hd; right; auto].
Qed.
Lemma laid_members o ts : o <> [] -> Forall (fun kv => lreads (snd kv)) o -> Forall2 entry_text o ts -> forall f d rest acc,
  (2 * length (join [44%N] ts) + 1 <= f)%nat -> (forall k v, In (k, v) o -> depth v < d) -> NoDup (map fst acc ++ map fst o) ->
  read_members f d (join [44] ts ++ 125 :: rest) acc = Some (acc ++ map (fun kv => (fst kv, tree (snd kv))) o, rest).
Proof.
  revert ts. induction o as [|[k v] o IH]; [congruence|]. intros ts _ Hr He f d rest acc Hf Hd Hn. inversion Hr as [|? ? Rv Ra]; subst. cbn [snd] in Rv. inversion He as [|? t ? ts' Ev Ea]; subst. destruct f as [|f]; [Lia.lia|].
  assert (Nk : ~ In k (map fst acc)).
  { intros I. cbn [map fst] in Hn. apply NoDup_remove_2 in Hn. apply Hn. apply in_or_app. auto. }
  destruct Ev as (w1 & w2 & w3 & w4 & t0 & W1 & W2 & W3 & W4 & L & ->). cbn [fst snd] in *.
  assert (Step : forall c r, c = 44 \/ c = 93 \/ c = 125 -> (2 * length t0 <= f)%nat -> read_members (S f) d ((w1 ++ json_string k ++ w2 ++ [58] ++ w3 ++ t0 ++ w4) ++ c :: r) acc =
     match c :: r with 44 :: r => read_members f d r (acc ++ [(k, tree v)]) | 125 :: t => Some (acc ++ [(k, tree v)], t) | _ => None end).
  { intros c r Hc Hl. rewrite <- !app_assoc. rewrite members_white by exact W1. unfold json_string. rewrite <- !app_assoc. cbn [app read_members]. rewrite skip_ws_head by lia. rewrite read_str_escaped. rewrite skip_white by exact W2. rewrite skip_ws_head by lia.
    rewrite read_white by exact W3. rewrite (Rv t0 L); [|Lia.lia|eapply Hd; left; auto|apply stop_white; auto]. rewrite skip_white by exact W4. rewrite skip_ws_head by lia. rewrite map_insert_new by auto. reflexivity. }
  destruct o as [|[k2 v2] o].
  - inversion Ea; subst. cbn [map join] in *. rewrite !app_length in Hf. rewrite Step by (auto; Lia.lia). reflexivity.
  - inversion Ea as [|? u ? us Ex Eus]; subst. change (join [44] ((w1 ++ json_string k ++ w2 ++ [58] ++ w3 ++ t0 ++ w4) :: u :: us)) with ((w1 ++ json_string k ++ w2 ++ [58] ++ w3 ++ t0 ++ w4) ++ [44] ++ join [44] (u :: us)) in *.
    rewrite !app_length in Hf. cbn [length] in Hf. rewrite <- (app_assoc (w1 ++ json_string k ++ w2 ++ [58] ++ w3 ++ t0 ++ w4) ([44] ++ join [44] (u :: us))). change (([44] ++ join [44] (u :: us)) ++ 125 :: rest) with (44 :: (join [44] (u :: us) ++ 125 :: rest)). rewrite Step by (auto; Lia.lia).
    rewrite IH; [rewrite <- app_assoc; reflexivity|discriminate|auto|auto|Lia.lia|intros; eapply Hd; right; eauto|].
    rewrite map_app, <- app_assoc. exact Hn.
Qed.
Lemma laid_head (fl : bytes -> Prop) v t : (forall t, fl t -> float_text t) -> good fl v -> laid v t -> exists c r, t = c :: r /\ head_ok c.
Proof.
  intros Hfl G L. destruct v as [|b|i|x|s|a|o]; try (cbn [laid] in L; subst t; eapply json_head; eauto).
  - apply laid_arr in L as (w & ts & _ & -> & _). eexists _, _. split; [reflexivity|]. unfold head_ok; lia.
  - apply laid_obj in L as (w & ts & _ & -> & _). eexists _, _. split; [reflexivity|]. unfold head_ok; lia.
Qed.
Theorem good_lreads (fl : bytes -> Prop) v : (forall t, fl t -> float_text t /\ float_of_text t = Some t) -> good fl v -> lreads v.
Proof.
  intros Hfl G. assert (Hh : forall v t, good fl v -> laid v t -> exists c r, t = c :: r /\ head_ok c) by (intros w t Gw; eapply laid_head; [|exact Gw]; intros x Hx; apply Hfl; auto).
  revert G. induction v as [|b|i|x|s|a IHa|o IHo] using value_ind'; intros G t L f d rest Hf Hd Hs;
    try (cbn [laid] in L; subst t; eapply good_reads; eauto; fail).
  - inversion G as [| | | | |? Ga|]; subst. apply laid_arr in L as (w & ts & W & -> & Fe). rewrite !app_length in Hf. cbn [length] in Hf. destruct f as [|f]; [Lia.lia|]. cbn [depth] in Hd.
    rewrite <- !app_assoc. cbn [app]. rewrite read_head by (unfold head_ok; lia).
    change (91 =? 110) with false. change (91 =? 116) with false. change (91 =? 102) with false. change (91 =? 45) with false. change (is_digit 91) with false. change (91 =? 34) with false. change (91 =? 91) with true. cbv iota.
    replace (d <=? 1) with false by lia. rewrite skip_white, elems_white by exact W. destruct a as [|v a].
    + inversion Fe; subst. cbn [join app]. rewrite skip_ws_head by lia. reflexivity.
    + inversion Fe as [|? u ? us Ev Eus]; subst. pose proof Ev as (w1 & t0 & w2 & W1 & W2 & L0 & ->).
      assert (X : exists c r, skip_ws (join [44] ((w1 ++ t0 ++ w2) :: us) ++ 93 :: rest) = c :: r /\ head_ok c).
      { destruct (Hh v t0 (Ga v (or_introl eq_refl)) L0) as [c [r [E Hc]]]. exists c. destruct us as [|y us].
        - cbn [join]. rewrite <- !app_assoc. rewrite skip_white by exact W1. rewrite E. cbn [app]. rewrite skip_ws_head by (unfold head_ok in Hc; tauto). eauto.
        - change (join [44] ((w1 ++ t0 ++ w2) :: y :: us)) with ((w1 ++ t0 ++ w2) ++ [44] ++ join [44] (y :: us)). rewrite <- !app_assoc. rewrite skip_white by exact W1. rewrite E. cbn [app]. rewrite skip_ws_head by (unfold head_ok in Hc; tauto). eauto. }
      destruct X as [c [r [E Hc]]]. match goal with |- context [skip_ws ?x] => replace (skip_ws x) with (c :: r) by (symmetry; exact E) end. etransitivity; [apply (match93 _ (fun t => Some (JArr [], t)) _ (c :: r)); cbn [hd]; unfold head_ok in Hc; tauto|].
      rewrite (laid_elems (v :: a)); [reflexivity|discriminate| |exact Fe| |].
      * apply Forall_forall. intros y I. rewrite Forall_forall in IHa. apply IHa; auto.
      * Lia.lia.
      * intros y I. pose proof (depth_elem (map depth (v :: a)) (depth y) (in_map _ _ _ I)). lia.
  - inversion G as [| | | | | |? Gn Go]; subst. apply laid_obj in L as (w & ts & W & -> & Fe). rewrite !app_length in Hf. cbn [length] in Hf. destruct f as [|f]; [Lia.lia|]. cbn [depth] in Hd.
    rewrite <- !app_assoc. cbn [app]. rewrite read_head by (unfold head_ok; lia).
    change (123 =? 110) with false. change (123 =? 116) with false. change (123 =? 102) with false. change (123 =? 45) with false. change (is_digit 123) with false. change (123 =? 34) with false. change (123 =? 91) with false. change (123 =? 123) with true. cbv iota.
    replace (d <=? 1) with false by lia. rewrite skip_white, members_white by exact W. destruct o as [|[k v] o].
    + inversion Fe; subst. cbn [join app]. rewrite skip_ws_head by lia. reflexivity.
    + inversion Fe as [|? u ? us Ev Eus]; subst. pose proof Ev as (w1 & w2 & w3 & w4 & t0 & W1 & _ & _ & _ & _ & ->). cbn [fst] in *.
      assert (X : exists r, skip_ws (join [44] ((w1 ++ json_string k ++ w2 ++ [58] ++ w3 ++ t0 ++ w4) :: us) ++ 125 :: rest) = 34 :: r).
      { destruct us as [|y us].
        - cbn [join]. rewrite <- !app_assoc. rewrite skip_white by exact W1. unfold json_string. cbn [app]. rewrite skip_ws_head by lia. eauto.
        - change (join [44] ((w1 ++ json_string k ++ w2 ++ [58] ++ w3 ++ t0 ++ w4) :: y :: us)) with ((w1 ++ json_string k ++ w2 ++ [58] ++ w3 ++ t0 ++ w4) ++ [44] ++ join [44] (y :: us)). rewrite <- !app_assoc. rewrite skip_white by exact W1. unfold json_string. cbn [app]. rewrite skip_ws_head by lia. eauto. }
      destruct X as [r E]. match goal with |- context [skip_ws ?x] => replace (skip_ws x) with (34 :: r) by (symmetry; exact E) end. etransitivity; [apply (match125 _ (fun t => Some (JObj [], t)) _ (34 :: r)); cbn [hd]; lia|].
      rewrite (laid_members ((k, v) :: o)); [reflexivity|discriminate| |exact Fe| | |].
      * apply Forall_forall. intros [k' y] I. rewrite Forall_forall in IHo. apply (IHo (k', y)); auto. apply (Go k'); auto.
      * Lia.lia.
      * intros k' y I. pose proof (depth_elem (map (fun kv => depth (snd kv)) ((k, v) :: o)) (depth y) (in_map (fun kv => depth (snd kv)) _ _ I)). lia.
      * exact Gn.
Qed.
End F.
