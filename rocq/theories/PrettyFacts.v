(** The pretty text of a value is a JSON text of it. *)
From Verif Require Import Base StdStr Data Json DataDefs Prims Common Sadder LayoutDefs Pretty.
From Verif Require Import BaseFacts StdStrFacts DataFacts JsonFacts LayoutFacts.

Lemma white_nil : white [].
Proof. intros c []. Qed.
Lemma white_app a b : white a -> white b -> white (a ++ b).
Proof. intros A B c I. apply in_app_or in I as [I|I]; auto. Qed.
Lemma white_line n : white (new_line n).
Proof. intros c [<-|I]; [tauto|]. unfold rep in I. apply repeat_spec in I. tauto. Qed.
Lemma white_blank : white [32].
Proof. intros c [<-|[]]. tauto. Qed.
Lemma elem_app v t w : elem v t -> white w -> elem v (t ++ w).
Proof. intros (w1 & t0 & w2 & A & B & L & ->) W. exists w1, t0, (w2 ++ w). repeat split; auto; [apply white_app; auto|]. rewrite <- !app_assoc. reflexivity. Qed.
Lemma entry_app kv t w : entry_text kv t -> white w -> entry_text kv (t ++ w).
Proof. intros (w1 & w2 & w3 & w4 & t0 & A & B & D & E & L & ->) W. exists w1, w2, w3, (w4 ++ w), t0. repeat split; auto; [apply white_app; auto|]. rewrite <- !app_assoc. reflexivity. Qed.
Lemma join_tail {A} (R : A -> bytes -> Prop) (a : list A) ts w : (forall x t, R x t -> R x (t ++ w)) -> a <> [] -> Forall2 R a ts -> exists us, join [44] ts ++ w = join [44] us /\ Forall2 R a us.
Proof.
  intros HR N0 F. revert N0. induction F as [|x t a ts Rx F IH]; [congruence|]. intros _. destruct F as [|y u a ts Ry F].
  - exists [t ++ w]. split; [reflexivity|]. constructor; [auto|constructor].
  - destruct IH as (us & E & G); [discriminate|]. inversion G as [|? v ? vs Rv Gv]; subst. exists (t :: v :: vs). split; [|constructor; auto].
    change (join [44] (t :: u :: ts)) with (t ++ [44] ++ join [44] (u :: ts)). change (join [44] (t :: v :: vs)) with (t ++ [44] ++ join [44] (v :: vs)). rewrite <- E, <- !app_assoc. reflexivity.
Qed.
Lemma forall2_map {A B} (R : A -> B -> Prop) (f : A -> B) l : (forall x, In x l -> R x (f x)) -> Forall2 R l (map f l).
Proof. induction l as [|x l IH]; intros H; constructor; [apply H; left; auto|apply IH; intros; apply H; right; auto]. Qed.
Lemma jint_text i : jnum_text (jint i) = show_int i.
Proof. unfold jint, show_int. destruct (i <? 0)%Z eqn:E; cbn [jnum_text]; [unfold show_int; rewrite E|]; reflexivity. Qed.
Lemma pretty_laid fl v : good fl v -> forall n, laid v (json_pretty n (tree v)).
Proof.
  induction v as [|b|i|t|s|a IHa|o IHo] using value_ind'; intros G n; try reflexivity.
  - cbn [tree json_pretty laid to_json]. apply jint_text.
  - rewrite Forall_forall in IHa. inversion G as [| | | | |? Ga|]; subst. apply laid_arr. destruct a as [|v a].
    + exists [], []. repeat split; [apply white_nil|constructor].
    + destruct (join_tail elem (v :: a) (map (fun e => new_line (n + 1) ++ json_pretty (n + 1) (tree e)) (v :: a)) (new_line n)) as (us & E & FF).
      * intros. apply elem_app; [auto|apply white_line].
      * discriminate.
      * apply forall2_map. intros x I. exists (new_line (n + 1)), (json_pretty (n + 1) (tree x)), []. repeat split; [apply white_line|apply white_nil|auto|]. rewrite app_nil_r. reflexivity.
      * exists [], us. split; [apply white_nil|]. split; [|exact FF]. cbn [app]. rewrite <- E. rewrite <- app_assoc. rewrite <- (map_map tree (fun j => new_line (n + 1) ++ json_pretty (n + 1) j)). reflexivity.
  - rewrite Forall_forall in IHo. inversion G as [| | | | | |? Gn Go]; subst. apply laid_obj. destruct o as [|[k v] o].
    + exists [], []. repeat split; [apply white_nil|constructor].
    + destruct (join_tail entry_text ((k, v) :: o) (map (fun kv => new_line (n + 1) ++ json_string (fst kv) ++ s2b ": " ++ json_pretty (n + 1) (tree (snd kv))) ((k, v) :: o)) (new_line n)) as (us & E & FF).
      * intros. apply entry_app; [auto|apply white_line].
      * discriminate.
      * apply forall2_map. intros [k' x] I. cbn [fst snd]. exists (new_line (n + 1)), [], [32], [], (json_pretty (n + 1) (tree x)). repeat split; auto using white_line, white_nil, white_blank.
        -- cbn [snd]. apply (IHo (k', x) I). eapply Go; eauto.
        -- cbn [app fst]. rewrite app_nil_r. reflexivity.
      * exists [], us. split; [apply white_nil|]. split; [|exact FF]. cbn [app]. rewrite <- E. rewrite <- app_assoc.
        rewrite <- (map_map (fun kv => (fst kv, tree (snd kv))) (fun kj => new_line (n + 1) ++ json_string (fst kj) ++ s2b ": " ++ json_pretty (n + 1) (snd kj))). reflexivity.
Qed.

Definition flat (n : N) (ls : list bytes) : bytes := flat_map (fun l => new_line n ++ l) ls.
Lemma flat_app n a b : flat n (a ++ b) = flat n a ++ flat n b.
Proof. apply flat_map_app. Qed.
Lemma flat_indent n ls : flat n (map indent ls) = flat (n + 1) ls.
Proof.
  unfold flat. induction ls as [|l ls IH]; [reflexivity|]. cbn [map flat_map]. rewrite IH. f_equal. unfold new_line, indent, rep. replace (N.to_nat (2 * (n + 1))) with (N.to_nat (2 * n) + 2)%nat by Lia.lia.
  rewrite repeat_app. cbn [app repeat]. rewrite <- app_assoc. reflexivity.
Qed.
Lemma flat_last n w ls : ls <> [] -> flat n (on_last (fun l => l ++ w) ls) = flat n ls ++ w.
Proof.
  induction ls as [|l ls IH]; [congruence|]. intros _. destruct ls as [|x ls].
  - cbn. rewrite !app_nil_r, <- app_assoc. reflexivity.
  - change (on_last (fun l => l ++ w) (l :: x :: ls)) with (l :: on_last (fun l => l ++ w) (x :: ls)). unfold flat in *. cbn [flat_map] in *. rewrite IH by discriminate. rewrite <- !app_assoc. reflexivity.
Qed.
Lemma lines_some v : lines v <> [].
Proof. destruct v as [| | | | |[|? ?]|[|? ?]]; discriminate. Qed.
Lemma flat_commas n ps : (forall p, In p ps -> p <> []) -> flat n (commas ps) = join [44] (map (flat n) ps).
Proof.
  induction ps as [|p ps IH]; [reflexivity|]. intros H. destruct ps as [|q ps]; [reflexivity|].
  change (commas (p :: q :: ps)) with (on_last (fun l => l ++ [44]) p ++ commas (q :: ps)). rewrite flat_app, flat_last by (apply H; left; auto). rewrite IH by (intros; apply H; right; auto).
  change (map (flat n) (p :: q :: ps)) with (flat n p :: flat n q :: map (flat n) ps). change (join [44] (flat n p :: flat n q :: map (flat n) ps)) with (flat n p ++ [44] ++ join [44] (flat n q :: map (flat n) ps)). rewrite <- app_assoc. reflexivity.
Qed.
Lemma pretty_flat v : forall n, new_line n ++ json_pretty n (tree v) = flat n (lines v).
Proof.
  induction v as [|b|i|t|s|a IHa|o IHo] using value_ind'; intros n; try (unfold flat; cbn [lines flat_map tree json_pretty to_json]; rewrite ?app_nil_r; reflexivity).
  - unfold flat; cbn [lines flat_map tree json_pretty to_json]. rewrite jint_text, app_nil_r. reflexivity.
  - rewrite Forall_forall in IHa. destruct a as [|v a]; [unfold flat; cbn [lines flat_map]; rewrite app_nil_r; reflexivity|]. change (lines (VArr (v :: a))) with ([[91]] ++ map indent (commas (map lines (v :: a))) ++ [[93]]). rewrite !flat_app, flat_indent.
    rewrite flat_commas by (intros p I; apply in_map_iff in I as (x & <- & _); apply lines_some). rewrite map_map.
    replace (map (fun x => flat (n + 1) (lines x)) (v :: a)) with (map (fun e => new_line (n + 1) ++ json_pretty (n + 1) e) (map tree (v :: a))) by (rewrite map_map; apply map_ext_in; intros x I; apply IHa, I).
    unfold flat. cbn [flat_map]. rewrite !app_nil_r, <- !app_assoc. reflexivity.
  - rewrite Forall_forall in IHo. destruct o as [|kv o]; [unfold flat; cbn [lines flat_map]; rewrite app_nil_r; reflexivity|]. change (lines (VObj (kv :: o))) with ([[123]] ++ map indent (commas (map (fun kv => on_first (fun l => json_string (fst kv) ++ s2b ": " ++ l) (lines (snd kv))) (kv :: o))) ++ [[125]]). rewrite !flat_app, flat_indent.
    rewrite flat_commas. 2:{ intros p I. apply in_map_iff in I as ([k x] & <- & _). cbn [snd]. pose proof (lines_some x). destruct (lines x); [congruence|discriminate]. }
    rewrite map_map.
    replace (map (fun x : bytes * data => flat (n + 1) (on_first (fun l => json_string (fst x) ++ s2b ": " ++ l) (lines (snd x)))) (kv :: o)) with (map (fun kj => new_line (n + 1) ++ json_string (fst kj) ++ s2b ": " ++ json_pretty (n + 1) (snd kj)) (map (fun kv => (fst kv, tree (snd kv))) (kv :: o))).
    2:{ rewrite map_map. apply map_ext_in. intros [k x] I. cbn [fst snd]. pose proof (IHo _ I (n + 1)) as X. cbn [snd] in X. destruct (lines x) as [|l ls] eqn:E; [destruct (lines_some x E)|]. unfold flat in X |- *. cbn [on_first flat_map] in *. rewrite <- app_assoc in X. apply app_inv_head in X. rewrite X. rewrite <- !app_assoc. reflexivity. }
    unfold flat. cbn [flat_map]. rewrite !app_nil_r, <- !app_assoc. reflexivity.
Qed.
Lemma join_flat ls : ls <> [] -> 10 :: join [10] ls = flat 0 ls.
Proof.
  induction ls as [|l ls IH]; [congruence|]. intros _. destruct ls as [|x ls]; [unfold flat; cbn; rewrite app_nil_r; reflexivity|].
  change (join [10] (l :: x :: ls)) with (l ++ [10] ++ join [10] (x :: ls)). change (flat 0 (l :: x :: ls)) with ((10 :: l) ++ flat 0 (x :: ls)). rewrite <- IH by discriminate. reflexivity.
Qed.
Lemma pretty_lines v : json_pretty 0 (tree v) = join [10] (lines v).
Proof.
  pose proof (pretty_flat v 0) as H. rewrite <- join_flat in H by apply lines_some. change (new_line 0) with [10] in H. injection H as H. exact H.
Qed.
