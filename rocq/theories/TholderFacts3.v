(** Thresholds: the constructors. *)
From Coq Require Import QArith Lia.
From Verif Require Import Base Utf8 MatterTables Matter StdStr Data Json Prims Spec Tholder TholderDefs BaseFacts UtilFacts MatterDefs StdStrFacts SpecFacts PrimsDefs PrimsFacts PrimsFacts2 PrimsThms TholderFacts TholderFacts2.
Open Scope N_scope.

Lemma each_ok {A B} (f : A -> outcome B) l l' : each f l = Ok l' <-> Forall2 (fun a b => f a = Ok b) l l'.
Proof.
  revert l'. induction l as [|a l IH]; intros l'; cbn [each].
  - split; [intros H; apply Ok_inj in H; subst; constructor|intros H; inversion H; reflexivity].
  - split.
    + destruct (f a) as [b| |] eqn:E; [|discriminate|discriminate]. cbn [obind]. destruct (each f l) as [bs| |]; [|discriminate|discriminate]. cbn [obind]. intros H. apply Ok_inj in H. subst l'. constructor; [exact E|]. apply IH. reflexivity.
    + intros H. inversion H as [|? b ? bs E F]; subst. rewrite E. cbn [obind]. apply IH in F. rewrite F. reflexivity.
Qed.
Lemma to_vec_ok v l : to_vec v = Ok l <-> v = VArr l.
Proof. destruct v; cbn; split; intros H; try discriminate; [apply Ok_inj in H; subst; reflexivity|]. injection H as ->. reflexivity. Qed.
Lemma to_string_ok v s : Data.to_string v = Ok s <-> v = VStr s.
Proof. destruct v; cbn; split; intros H; try discriminate; [apply Ok_inj in H; subst; reflexivity|]. injection H as ->. reflexivity. Qed.

Section V.
Context `{P : Profile}.
Lemma clause_ok v rs : clause_of_value v = Ok rs <-> exists ts, v = VArr (map VStr ts) /\ Forall2 (fun t r => weight_of_text t = Ok r) ts rs.
Proof.
  unfold clause_of_value. split.
  - destruct (to_vec v) as [l| |] eqn:E; [|discriminate|discriminate]. cbn [obind]. apply to_vec_ok in E. subst v. rewrite each_ok. intros F.
    induction F as [|w r l rs H F IH]; [exists []; split; [reflexivity|constructor]|]. destruct IH as (ts & E & F'). injection E as ->.
    destruct (Data.to_string w) as [t| |] eqn:Et; [|discriminate|discriminate]. apply to_string_ok in Et. subst w. exists (t :: ts). split; [reflexivity|constructor; auto].
  - intros (ts & -> & F). cbn [to_vec obind]. apply each_ok. induction F; cbn [map]; constructor; auto.
Qed.
Lemma vtr_ok v rs : values_to_rationals v = Ok rs <->
  exists ts, v = clause_texts ts /\ Forall2 (Forall2 (fun t r => weight_of_text t = Ok r)) ts rs /\ Forall (fun c => check_clause c = Ok tt) rs.
Proof.
  unfold values_to_rationals. 
  assert (C : forall cs, (exists u, each check_clause cs = Ok u) <-> Forall (fun c => check_clause c = Ok tt) cs).
  { intros cs. split.
    - intros [u H]. apply each_ok in H. induction H as [|c [] cs us H F IH]; constructor; auto.
    - intros H. exists (map (fun _ => tt) cs). apply each_ok. induction H; cbn [map]; constructor; auto. }
  split.
  - destruct (to_vec v) as [l| |] eqn:E; [|discriminate|discriminate]. cbn [obind]. apply to_vec_ok in E. subst v.
    destruct (each clause_of_value l) as [cs| |] eqn:Ec; [|discriminate|discriminate]. cbn [obind]. destruct (each check_clause cs) as [u| |] eqn:Eu; [|discriminate|discriminate]. cbn [obind]. intros H. apply Ok_inj in H. subst cs.
    apply each_ok in Ec. assert (K : Forall (fun c => check_clause c = Ok tt) rs) by (apply C; eauto). clear Eu C.
    assert (X : exists ts, VArr l = clause_texts ts /\ Forall2 (Forall2 (fun t r => weight_of_text t = Ok r)) ts rs).
    { clear K. induction Ec as [|w r l rs H F IH]; [exists []; split; [reflexivity|constructor]|]. destruct IH as (ts & E & F'). injection E as ->. apply clause_ok in H as (t & -> & Ht). exists (t :: ts). split; [reflexivity|constructor; auto]. }
    destruct X as (ts & -> & F). eauto.
  - intros (ts & -> & F & K). cbn [clause_texts to_vec obind]. 
    assert (Ec : each clause_of_value (map (fun c => VArr (map VStr c)) ts) = Ok rs).
    { apply each_ok. clear K. induction F as [|t r ts rs H F IH]; cbn [map]; constructor; auto. apply clause_ok. eauto. }
    rewrite Ec. cbn [obind]. apply C in K as [u ->]. reflexivity.
Qed.
Lemma texts_weights ts rs : Forall2 (Forall2 (fun t r => weight_of_text t = Ok r)) ts rs ->
  exists cs, Forall2 (Forall2 weight_text) ts cs /\ Forall2 (Forall2 stands_for) rs cs.
Proof.
  induction 1 as [|t r ts rs H F IH]; [exists []; split; constructor|]. destruct IH as (cs & F1 & F2).
  assert (X : exists c, Forall2 weight_text t c /\ Forall2 stands_for r c).
  { clear -H. induction H as [|x r t rs H F IH]; [exists []; split; constructor|]. destruct IH as (c & F1 & F2). destruct (weight_of_text_some x r H) as (w & Hw & Sw). exists (w :: c). split; constructor; auto. }
  destruct X as (c & C1 & C2). exists (c :: cs). split; constructor; auto.
Qed.
Lemma weights_texts ts cs : Forall2 (Forall2 weight_text) ts cs -> exists rs, Forall2 (Forall2 (fun t r => weight_of_text t = Ok r)) ts rs /\ Forall2 (Forall2 stands_for) rs cs.
Proof.
  induction 1 as [|t c ts cs H F IH]; [exists []; split; constructor|]. destruct IH as (rs & F1 & F2).
  assert (X : exists r, Forall2 (fun t r => weight_of_text t = Ok r) t r /\ Forall2 stands_for r c).
  { clear -H. induction H as [|x w t c H F IH]; [exists []; split; constructor|]. destruct IH as (rs & F1 & F2). destruct (weight_text_some x w H) as (r & Hr & Sr). exists (r :: rs). split; constructor; auto. }
  destruct X as (r & R1 & R2). exists (r :: rs). split; constructor; auto.
Qed.

(** the threshold shown again *)
Definition outer (rs : list (list ratio)) : data := clause_texts (map (map (show_weight 47)) rs).
Lemma outer_eq rs : VArr (map (fun c => VArr (map (fun w => VStr (show_weight 47 w)) c)) rs) = outer rs.
Proof. unfold outer, clause_texts. rewrite map_map. f_equal. apply map_ext. intros c. rewrite map_map. reflexivity. Qed.
Lemma outer_show rs cs : Forall2 (Forall2 stands_for) rs cs -> outer rs = clauses_value (map (map lowest) cs).
Proof.
  intros F. unfold outer, clauses_value. f_equal. induction F as [|r c rs cs H F IH]; [reflexivity|]. cbn [map]. rewrite IH. f_equal.
  clear -H. induction H as [|r w rs ws H F IH]; [reflexivity|]. cbn [map]. rewrite IH. f_equal. apply show_weight_show. exact H.
Qed.
Lemma vtr_again v rs : values_to_rationals v = Ok rs -> values_to_rationals (outer rs) = Ok rs.
Proof.
  rewrite !vtr_ok. intros (ts & -> & F & K). destruct (texts_weights _ _ F) as (cs & _ & S). exists (map (map (show_weight 47)) rs). split; [reflexivity|]. split; [|exact K]. clear K F.
  induction S as [|r c rs cs H F IH]; cbn [map]; constructor; auto. clear -H. induction H as [|r w rs ws H F IH]; cbn [map]; constructor; auto. eapply show_again; exact H.
Qed.
Lemma process_weighted_inv v t : process_weighted v = Ok t ->
  exists rs b, values_to_rationals v = Ok rs /\ count_weights 0 rs = Ok (th_size t) /\ bexter_of (rationals_to_bext rs) = Ok b /\ t = Th (outer rs) true (th_size t) None (Some b).
Proof.
  unfold process_weighted. destruct (values_to_rationals v) as [rs| |] eqn:Ev; [|discriminate|discriminate]. cbn [obind]. destruct (count_weights 0 rs) as [n| |] eqn:En; [|discriminate|discriminate]. cbn [obind].
  fold (bexter_of (rationals_to_bext rs)). destruct (bexter_of (rationals_to_bext rs)) as [b| |] eqn:Eb; [|discriminate|discriminate]. cbn [obind]. rewrite outer_eq. intros H. apply Ok_inj in H. subst t. exists rs, b. cbn [th_size]. auto.
Qed.
Lemma process_weighted_eq v rs n b : values_to_rationals v = Ok rs -> count_weights 0 rs = Ok n -> bexter_of (rationals_to_bext rs) = Ok b -> process_weighted v = Ok (Th (outer rs) true n None (Some b)).
Proof. intros H1 H2 H3. unfold process_weighted. rewrite H1. cbn [obind]. rewrite H2. cbn [obind]. fold (bexter_of (rationals_to_bext rs)). rewrite H3. cbn [obind]. rewrite outer_eq. reflexivity. Qed.
Lemma process_weighted_again v t : process_weighted v = Ok t -> process_weighted (th_thold t) = Ok t.
Proof.
  intros H. destruct (process_weighted_inv v t H) as (rs & b & H1 & H2 & H3 & E). rewrite E at 2. rewrite E at 1. cbn [th_thold]. apply process_weighted_eq; auto. eapply vtr_again; eauto.
Qed.

(** numeric *)
Definition numeric (n : N) (t : tholder) : Prop := n < 2 ^ 32 /\ exists m, number_of n = Ok m /\ t = Th (VInt (Z.of_N n)) false n (Some m) None.
Lemma process_unweighted_ok z t : process_unweighted z = Ok t -> (0 <= z < 2 ^ 32)%Z /\ numeric (Z.to_N z) t.
Proof.
  unfold process_unweighted. destruct (Z.ltb_spec z 0); [discriminate|]. destruct (Z.ltb_spec (Z.of_N u32_max) z); [discriminate|]. fold (number_of (Z.to_N z)). 
  change (Z.of_N u32_max) with 4294967295%Z in *. destruct (number_of (Z.to_N z)) as [m| |] eqn:E; [|discriminate|discriminate]. cbn [obind]. intros X. apply Ok_inj in X. subst t.
  split; [change (2 ^ 32)%Z with 4294967296%Z; Lia.lia|]. split; [change (2 ^ 32) with 4294967296; Lia.lia|]. exists m. rewrite Z2N.id by Lia.lia. auto.
Qed.
Lemma numeric_made n : n < 2 ^ 32 -> exists t, process_unweighted (Z.of_N n) = Ok t /\ numeric n t.
Proof.
  intros H. assert (H' : n < 2 ^ 128) by (eapply N.lt_trans; [exact H|reflexivity]). pose proof (number_of_ok n H') as E.
  unfold process_unweighted. replace (Z.of_N n <? 0)%Z with false by (symmetry; apply Z.ltb_ge; Lia.lia).
  replace (Z.of_N u32_max <? Z.of_N n)%Z with false by (symmetry; apply Z.ltb_ge; change (Z.of_N u32_max) with 4294967295%Z; change (2 ^ 32) with 4294967296 in H; Lia.lia).
  rewrite N2Z.id. fold (number_of n). rewrite E. cbn [obind]. eexists. split; [reflexivity|]. split; [exact H|]. eexists. split; [exact E|reflexivity].
Qed.
Lemma numeric_process n t : numeric n t -> process_unweighted (Z.of_N n) = Ok t.
Proof. intros [H (m & E & ->)]. destruct (numeric_made n H) as (t & Et & _ & m' & Em & ->). rewrite Em in E. apply Ok_inj in E. subst m'. exact Et. Qed.

Definition formed (t : tholder) : Prop := (exists n, numeric n t) \/ (exists v, process_weighted v = Ok t).
Lemma process_thold_formed v t : process_thold v = Ok t -> formed t.
Proof.
  unfold process_thold. destruct (to_i64 v) as [z| |]; [|right; eauto|right; eauto]. intros H. apply process_unweighted_ok in H as [_ H]. left. eauto.
Qed.
Lemma process_limen_formed s l t : process_limen s l = Ok t -> (l = [] /\ t = s) \/ formed t.
Proof.
  destruct l as [|c l]; cbn [process_limen]; [intros H; apply Ok_inj in H; auto|]. intros H. right.
  destruct (from_utf8 (c :: l)) as [u| |]; [|discriminate|discriminate]. cbn [obind] in H. destruct (hardage c) as [hs| |]; [|discriminate|discriminate]. cbn [obind] in H.
  destruct (str_slice u 0 hs) as [code| |]; [|discriminate|discriminate]. cbn [obind] in H. destruct (mem_code code number_codes).
  - destruct (number_new _ _ _ _ _ _ _) as [m| |]; [|discriminate|discriminate]. cbn [obind] in H. destruct (number_num m) as [k| |]; [|discriminate|discriminate]. cbn [obind] in H.
    destruct (2 ^ 63 - 1 <? k); [discriminate|]. apply process_unweighted_ok in H as [_ H]. left. eauto.
  - destruct (mem_code code bexter_codes); [|discriminate]. destruct (bexter_new _ _ _ _ _ _) as [m| |]; [|discriminate|discriminate]. cbn [obind] in H. destruct (bext_of m) as [k| |]; [|discriminate|discriminate]. cbn [obind] in H. cbv zeta in H. right. eauto.
Qed.
Lemma process_sith_list_formed v t : process_sith_list v = Ok t -> exists v', process_weighted v' = Ok t.
Proof.
  unfold process_sith_list. destruct (to_vec v) as [l| |]; [|discriminate|discriminate]. cbn [obind]. destruct l as [|x l]; [discriminate|]. cbv zeta. set (v' := if forallb is_vec (x :: l) then v else VArr [v]). clearbody v'.
  destruct (to_vec v') as [l'| |]; [|discriminate|discriminate]. cbn [obind]. destruct (each _ l'); [|discriminate|discriminate]. cbn [obind]. eauto.
Qed.
Lemma process_sith_formed `{Floats} v t : process_sith v = Ok t -> formed t.
Proof.
  assert (L : forall v, process_sith_list v = Ok t -> formed t) by (intros v' H'; right; eapply process_sith_list_formed; eauto).
  unfold process_sith. destruct v as [| |z| |s|l|l]; try apply L.
  - intros X. apply process_unweighted_ok in X as [_ X]. left. eauto.
  - destruct (starts_with (s2b "[") s).
    + destruct (json_from_str s) as [j| |]; [|discriminate|discriminate]. cbn [obind]. destruct (import j) as [v| |]; [|discriminate|discriminate]. cbn [obind]. apply L.
    + destruct (parse_hex_i64 s) as [z| |]; [|discriminate|discriminate]. cbn [obind]. intros X. apply process_unweighted_ok in X as [_ X]. left. eauto.
Qed.
Definition final (t : tholder) : outcome tholder := match t with Th (VInt 1) false 1 None None => Err E_EmptyMaterial | _ => Ok t end.
Lemma formed_final t : formed t -> final t = Ok t.
Proof.
  intros [[n (_ & m & _ & ->)]|[v H]].
  - unfold final. destruct n as [|[]]; reflexivity.
  - apply process_weighted_inv in H as (rs & b & _ & _ & _ & ->). unfold final, outer, clause_texts. reflexivity.
Qed.
Lemma final_ok s t : final s = Ok t -> s = t.
Proof. unfold final. destruct s as [[| | z | | | | ] w n m b]; try (intros H; apply Ok_inj in H; exact H). destruct z as [|[p|p|]|p]; try (intros H; apply Ok_inj in H; exact H). destruct w; try (intros H; apply Ok_inj in H; exact H). destruct n as [|[p|p|]]; try (intros H; apply Ok_inj in H; exact H). destruct m; try (intros H; apply Ok_inj in H; exact H). destruct b; [intros H; apply Ok_inj in H; exact H|discriminate]. Qed.
Lemma tholder_new_eq `{Floats} thold limen sith : tholder_new thold limen sith =
  (t <- match thold with Some v => process_thold v | None => Ok tholder_default end ;;
   t <- match limen with Some l => process_limen t l | None => Ok t end ;;
   t <- match sith with Some v => process_sith v | None => Ok t end ;; final t).
Proof. reflexivity. Qed.
Lemma new_formed `{Floats} thold limen sith t : tholder_new thold limen sith = Ok t -> formed t.
Proof.
  rewrite tholder_new_eq. 
  assert (A : forall t0, (match thold with Some v => process_thold v | None => Ok tholder_default end) = Ok t0 -> t0 = tholder_default \/ formed t0).
  { destruct thold; intros t0 X; [right; eapply process_thold_formed; eauto|apply Ok_inj in X; auto]. }
  destruct (match thold with Some v => process_thold v | None => Ok tholder_default end) as [t0| |]; [|discriminate|discriminate]. cbn [obind]. specialize (A t0 eq_refl).
  assert (B : forall t1, (match limen with Some l => process_limen t0 l | None => Ok t0 end) = Ok t1 -> t1 = tholder_default \/ formed t1).
  { destruct limen; intros t1 X; [|apply Ok_inj in X; subst; auto]. apply process_limen_formed in X as [[_ ->]|X]; auto. }
  destruct (match limen with Some l => process_limen t0 l | None => Ok t0 end) as [t1| |]; [|discriminate|discriminate]. cbn [obind]. specialize (B t1 eq_refl).
  assert (D : forall t2, (match sith with Some v => process_sith v | None => Ok t1 end) = Ok t2 -> t2 = tholder_default \/ formed t2).
  { destruct sith; intros t2 X; [right; eapply process_sith_formed; eauto|apply Ok_inj in X; subst; auto]. }
  destruct (match sith with Some v => process_sith v | None => Ok t1 end) as [t2| |]; [|discriminate|discriminate]. cbn [obind]. specialize (D t2 eq_refl).
  intros X. destruct D as [->|D]; [discriminate X|]. rewrite formed_final in X by exact D. apply Ok_inj in X. subst t2. exact D.
Qed.
Lemma new_thold `{Floats} v t : process_thold v = Ok t -> tholder_new (Some v) None None = Ok t.
Proof. intros X. rewrite tholder_new_eq. rewrite X. cbn [obind]. apply formed_final. eapply process_thold_formed; eauto. Qed.
Lemma new_limen `{Floats} l t : l <> [] -> process_limen tholder_default l = Ok t -> tholder_new None (Some l) None = Ok t.
Proof. intros Hne X. rewrite tholder_new_eq. cbn [obind]. rewrite X. cbn [obind]. apply formed_final. apply process_limen_formed in X as [[-> _]|X]; [congruence|exact X]. Qed.
Lemma new_sith `{Floats} v t : process_sith v = Ok t -> tholder_new None None (Some v) = Ok t.
Proof. intros X. rewrite tholder_new_eq. cbn [obind]. rewrite X. cbn [obind]. apply formed_final. eapply process_sith_formed; eauto. Qed.
End V.
