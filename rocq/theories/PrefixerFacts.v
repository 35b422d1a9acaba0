(** Lemmas about identifier prefixes. *)
From Verif Require Import Base Utf8 MatterTables Matter StdStr Data Spec MatterDefs Crypto Prims PrimsDefs CommonDefs Saider SaiderDefs Prefixer PrefixerDefs.
From Verif Require Import Common BaseFacts UtilFacts MatterFacts MatterFacts2 MatterFacts3 SpecFacts MatterFacts4 StdStrFacts MatterThms PrimsFacts PrimsFacts2 DataFacts JsonFacts CommonFacts CommonFacts2 DataThms SaiderFacts SaiderFacts2.

Section F.
Context `{P : Profile} `{C : Crypto}.
Local Notation obj := (list (bytes * data)).

Lemma fixed_keys c : In c fixed_key_codes <-> In c nontransferable_codes. Proof. apply mem_iff. vm_compute. reflexivity. Qed.
Lemma rotating_keys c : In c rotating_key_codes <-> In c transferable_codes. Proof. apply mem_iff. vm_compute. reflexivity. Qed.
Lemma prefix_codes_iff c : In c prefix_codes <-> In c prefixer_codes. Proof. apply mem_iff. vm_compute. reflexivity. Qed.
Lemma get_iff (o : obj) k v : NoDup (map fst o) -> map_get k o = Some v <-> In (k, v) o.
Proof. intros N. split; [apply map_get_In|apply In_map_get; exact N]. Qed.
Lemma key_iff (o : obj) k : contains_key k o = true <-> In k (map fst o). Proof. apply has_key. Qed.
Lemma key_get (o : obj) k : contains_key k o = match map_get k o with Some _ => true | None => false end. Proof. reflexivity. Qed.

(** the ilk check, in front of either function *)
Lemma ilk_ok {A} (o : obj) (F : outcome A) (a : A) : NoDup (map fst o) ->
  (v <- vget (VObj o) (s2b "t") ;; ilk <- to_string v ;; if negb (mem_code ilk incepting) then Err E_Value else F) = Ok a <-> inception o /\ F = Ok a.
Proof.
  intros N. cbn [vget]. destruct (map_get (s2b "t") o) as [v|] eqn:E; cbn [obind].
  - destruct v as [| | | |t| |]; cbn [to_string obind]; try (split; [intros Z; discriminate Z|]; intros [(ilk & I & _) _]; apply (In_map_get _ _ _ N) in I; congruence).
    destruct (mem_code t incepting) eqn:M; cbn [negb].
    + split; [|intros [_ H]; exact H]. intros H. split; [|exact H]. exists t. split; [apply map_get_In; exact E|]. apply mem_code_In in M. exact M.
    + split; [intros Z; discriminate Z|]. intros [(ilk & I & J) _]. apply (In_map_get _ _ _ N) in I. assert (ilk = t) by congruence. subst ilk. apply mem_code_In in J. unfold incepting in M. cbn [map] in J. congruence.
  - split; [intros Z; discriminate Z|]. intros [(ilk & I & _) _]. apply (In_map_get _ _ _ N) in I. congruence.
Qed.
Lemma only_key_ok (o : obj) m : NoDup (map fst o) -> only_key (VObj o) o = Ok m <-> exists t, sole_key o t /\ verfer_new None None None (Some t) None = Ok m.
Proof.
  intros N. unfold only_key, sole_key. cbn [vget]. rewrite key_get. destruct (map_get (s2b "k") o) as [v|] eqn:E.
  - cbn [obind]. assert (X : forall w, In (s2b "k", w) o -> w = v) by (intros w I; apply (In_map_get _ _ _ N) in I; congruence). apply map_get_In in E.
    destruct v as [| | | | |l|]; cbn [to_vec obind]; try (split; [intros Z; discriminate Z|]; intros (? & I & _); apply X in I; discriminate).
    destruct l as [|e [|e2 l]].
    + cbn. split; [intros Z; discriminate Z|]. intros (t & I & _). apply X in I. discriminate.
    + change (negb (len [e] =? 1)) with false. cbv iota. change (index_at [e] 0) with (@Ok data e). cbn [obind]. destruct e as [| | | |t| |]; cbn [to_string obind]; try (split; [intros Z; discriminate Z|]; intros (? & I & _); apply X in I; discriminate).
      split; [intros H; exists t; auto|]. intros (t' & I & H). apply X in I. injection I as ->. exact H.
    + replace (len (e :: e2 :: l) =? 1) with false by (symmetry; apply N.eqb_neq; rewrite !len_cons; Lia.lia). cbn [negb]. split; [intros Z; discriminate Z|]. intros (t & I & _). apply X in I. discriminate.
  - split; [intros Z; discriminate Z|]. intros (t & I & _). apply (In_map_get _ _ _ N) in I. congruence.
Qed.
Lemma empty_text_ok (o : obj) k : NoDup (map fst o) -> empty_text (VObj o) o k = Ok tt <-> absent_or_empty o k.
Proof.
  intros N. unfold empty_text, absent_or_empty. cbn [vget]. rewrite key_get. destruct (map_get k o) as [v|] eqn:E.
  - cbn [obind]. assert (X : forall w, In (k, w) o -> w = v) by (intros w I; apply (In_map_get _ _ _ N) in I; congruence). assert (K : In k (map fst o)) by (apply key_iff; rewrite key_get, E; reflexivity). apply map_get_In in E.
    destruct v as [| | | |t| |]; cbn [to_string obind]; try (split; [intros Z; discriminate Z|]; intros [Z|I]; [contradiction|apply X in I; discriminate]).
    destruct t as [|c t]; [cbn; split; [intros _; right; exact E|reflexivity]|]. replace (len (c :: t) =? 0) with false by (symmetry; apply N.eqb_neq; rewrite len_cons; Lia.lia). split; [intros Z; discriminate Z|]. intros [Z|I]; [contradiction|apply X in I; discriminate].
  - split; [|reflexivity]. intros _. left. apply map_get_None. exact E.
Qed.
Lemma unit_ok (x : outcome unit) {A} (F : outcome A) a : (_ <- x ;; F) = Ok a <-> x = Ok tt /\ F = Ok a.
Proof. destruct x as [[]| |]; cbn [obind]; split; intros H; try discriminate H; try (destruct H as [H _]; discriminate H); [auto|destruct H; auto]. Qed.
Lemma derive_t_ok (o : obj) c r : NoDup (map fst o) -> derive_transferable (VObj o) c = Ok r <->
  exists t m, sole_key o t /\ verfer_new None None None (Some t) None = Ok m /\ m_code m = c /\ r = (m_raw m, c).
Proof.
  intros N. unfold derive_transferable. cbn [to_map obind]. split.
  - intros H. inv_bind H v Ev. apply (only_key_ok o v N) in Ev as (t & K & V). destruct (bytes_eqb (m_code v) c) eqn:B; cbn [negb] in H; [|discriminate]. apply bytes_eqb_eq in B. apply Ok_inj in H. subst. exists t, v. auto.
  - intros (t & m & K & V & <- & ->). assert (E : only_key (VObj o) o = Ok m) by (apply only_key_ok; eauto). rewrite E. cbn [obind]. rewrite bytes_eqb_refl. reflexivity.
Qed.
Lemma derive_n_ok (o : obj) c r : NoDup (map fst o) -> derive_nontransferable (VObj o) c = Ok r <->
  derive_transferable (VObj o) c = Ok r /\ absent_or_empty o (s2b "n") /\ absent_or_empty o (s2b "b") /\ absent_or_empty o (s2b "a").
Proof.
  intros N. unfold derive_nontransferable, derive_transferable. cbn [to_map obind]. destruct (only_key (VObj o) o) as [v| |]; cbn [obind]; [|split; [intros Z; discriminate Z|intros [H _]; discriminate]|split; [intros Z; discriminate Z|intros [H _]; discriminate]].
  destruct (negb _); [split; [intros Z; discriminate Z|intros [H _]; discriminate]|]. rewrite !unit_ok, !empty_text_ok by exact N. tauto.
Qed.
Lemma derive_d_ok (o : obj) c r : NoDup (map fst o) -> In c (map fst digest_sizes) -> derive_digest (VObj o) c = Ok r <->
  exists text, event_text (blank c o) text /\ r = (x_hash c text, c).
Proof.
  intros N Ic. unfold derive_digest. destruct (dummy_text c Ic) as (z & -> & Dz). cbn [obind]. rewrite Dz. cbn [obind vset].
  change (VStr (rep 35 (if len c =? 1 then 44 else 88))) with (placeholder c). rewrite (put_insert (s2b "i")) by exact N. rewrite (put_insert (s2b "d")) by (apply put_NoDup; exact N). fold (blank c o).
  assert (Nb : NoDup (map fst (blank c o))) by (apply put_NoDup, put_NoDup; exact N). set (b := blank c o) in *. split.
  - intros H. inv_bind H s Es. apply sizeify_inv in Es as (o2 & i & m & k & E & Hi & Hm & G & _ & F & Lk & Hn & ->). injection E as <-. cbn [sz_raw] in H. rewrite digest_ok in H by exact Ic. cbn [obind] in H. apply Ok_inj in H. subst r.
    eexists. split; [|reflexivity]. exists i, m, k. split; [apply map_get_In; exact G|]. split; [destruct Hi as [<-|[<-|[]]]; auto|]. split; [exact Hm|]. cbv zeta. split; [apply rever_find_first; exact F|]. split; [exact Lk|]. split; [exact Hn|]. reflexivity.
  - intros (text & (i & m & k & I & Hi & Hm & F & Lk & Hn & ->) & ->). apply (In_map_get _ _ _ Nb) in I. apply rever_find_first in F. rewrite (sizeify_ok b i m k None); auto; [|destruct Hi as [-> | ->]; cbn; auto|left; reflexivity].
    cbn [obind sz_raw]. rewrite digest_ok by exact Ic. reflexivity.
Qed.
Lemma derive_d_total (o : obj) c : In c (map fst digest_sizes) -> derive_digest (VObj o) c <> Panic.
Proof.
  intros Ic. unfold derive_digest. destruct (dummy_text c Ic) as (z & -> & Dz). cbn [obind]. rewrite Dz. cbn [obind vset]. destruct (sizeify _ None) as [r| |] eqn:E; cbn [obind]; [|discriminate|apply sizeify_total in E; destruct E]. rewrite digest_ok by exact Ic. discriminate.
Qed.
(** the placeholders hide the entries *)
Lemma blank_put c (o : obj) k x : NoDup (map fst o) -> k = s2b "i" \/ k = s2b "d" -> In k (map fst o) -> blank c (put k x o) = blank c o.
Proof.
  intros N H I. assert (Ni : NoDup (map fst (put k x o))) by (apply put_NoDup; exact N). apply map_ext_get.
  - apply put_NoDup, put_NoDup. exact Ni.
  - assert (K : forall (l l' : obj) k y, NoDup (map fst l) -> NoDup (map fst l') -> map fst l = map fst l' -> map fst (put k y l) = map fst (put k y l')).
    { clear. intros l l' k y N N' E. destruct (in_dec bytes_eq_dec k (map fst l)) as [J|J]; [rewrite !put_keys; auto; rewrite <- E; exact J|]. unfold put. rewrite <- E. replace (existsb (bytes_eqb k) (map fst l)) with false; [rewrite !map_app, E; reflexivity|]. symmetry. apply not_true_iff_false. rewrite existsb_key. exact J. }
    unfold blank. apply K; [apply put_NoDup; exact Ni|apply put_NoDup; exact N|]. apply K; auto. rewrite put_keys; auto.
  - intros k'. unfold blank. rewrite !put_get by (try apply put_NoDup; auto). destruct (bytes_eqb k' (s2b "d")) eqn:D; [reflexivity|]. destruct (bytes_eqb k' (s2b "i")) eqn:J; [reflexivity|].
    destruct H as [-> | ->]; [rewrite J|rewrite D]; reflexivity.
Qed.
Lemma verify_key_ok (o : obj) pre p : NoDup (map fst o) -> verify_key (VObj o) o pre p = Ok true <-> sole_key o pre /\ (p = true -> In (s2b "i", VStr pre) o).
Proof.
  intros N. unfold verify_key, sole_key. cbn [vget]. rewrite !key_get. destruct (map_get (s2b "k") o) as [v|] eqn:E; cbn [negb].
  2:{ split; [intros Z; discriminate Z|]. intros [I _]. apply (In_map_get _ _ _ N) in I. congruence. }
  cbn [obind]. assert (X : forall w, In (s2b "k", w) o -> w = v) by (intros w I; apply (In_map_get _ _ _ N) in I; congruence). apply map_get_In in E.
  destruct v as [| | | | |l|]; cbn [to_vec obind]; try (split; [intros Z; discriminate Z|]; intros [I _]; apply X in I; discriminate).
  destruct l as [|e [|e2 l]].
  - cbn. split; [intros Z; discriminate Z|]. intros [I _]. apply X in I. discriminate.
  - change (negb (len [e] =? 1)) with false. cbv iota. change (index_at [e] 0) with (@Ok data e). cbn [obind]. destruct e as [| | | |t| |]; cbn [to_string obind]; try (split; [intros Z; discriminate Z|]; intros [I _]; apply X in I; discriminate).
    destruct (bytes_eqb t pre) eqn:B; cbn [negb]. 2:{ split; [intros Z; discriminate Z|]. intros [I _]. apply X in I. injection I as ->. rewrite bytes_eqb_refl in B. discriminate. }
    apply bytes_eqb_eq in B. subst t. destruct p; [|split; [intros _; split; [exact E|intros Z; discriminate Z]|reflexivity]].
    destruct (map_get (s2b "i") o) as [w|] eqn:Ei; cbn [negb obind]. 2:{ split; [intros Z; discriminate Z|]. intros [_ I]. specialize (I eq_refl). apply (In_map_get _ _ _ N) in I. congruence. }
    assert (Xi : forall u, In (s2b "i", u) o -> u = w) by (intros u I; apply (In_map_get _ _ _ N) in I; congruence). apply map_get_In in Ei.
    destruct w as [| | | |t| |]; cbn [to_string obind]; try (split; [intros Z; discriminate Z|]; intros [_ I]; specialize (I eq_refl); apply Xi in I; discriminate).
    split; [intros H; apply Ok_inj in H; apply bytes_eqb_eq in H; subst t; auto|]. intros [_ I]. specialize (I eq_refl). apply Xi in I. injection I as ->. rewrite bytes_eqb_refl. reflexivity.
  - replace (len (e :: e2 :: l) =? 1) with false by (symmetry; apply N.eqb_neq; rewrite !len_cons; Lia.lia). cbn [negb]. split; [intros Z; discriminate Z|]. intros [I _]. apply X in I. discriminate.
Qed.
Lemma verify_n_ok (o : obj) pre p : NoDup (map fst o) -> verify_nontransferable (VObj o) pre p = Ok true <-> verify_key (VObj o) o pre p = Ok true /\ no_next o.
Proof.
  intros N. unfold verify_nontransferable, no_next. cbn [to_map obind vget]. destruct (verify_key (VObj o) o pre p) as [[|]| |]; cbn [obind negb]; try (split; [intros Z; discriminate Z|intros [H _]; discriminate]).
  rewrite key_get. destruct (map_get (s2b "n") o) as [v|] eqn:E.
  - assert (X : forall w, In (s2b "n", w) o -> w = v) by (intros w I; apply (In_map_get _ _ _ N) in I; congruence). apply map_get_In in E. cbn [obind].
    destruct v as [| | | |t|l|]; try (split; [intros _; split; [reflexivity|]; intros v I; apply X in I; subst v; split; intros; discriminate|reflexivity]).
    + split; [|intros [_ H]; destruct (H _ E) as [H1 _]; rewrite (H1 t eq_refl); reflexivity]. intros H. apply Ok_inj in H. apply N.eqb_eq in H. apply len_zero in H. subst t. split; [reflexivity|]. intros v I. apply X in I. subst v. split; intros; congruence.
    + split; [|intros [_ H]; destruct (H _ E) as [_ H1]; rewrite (H1 l eq_refl); reflexivity]. intros H. apply Ok_inj in H. apply N.eqb_eq in H. apply len_zero in H. subst l. split; [reflexivity|]. intros v I. apply X in I. subst v. split; intros; congruence.
  - split; [|reflexivity]. intros _. split; [reflexivity|]. intros v I. apply (In_map_get _ _ _ N) in I. congruence.
Qed.
End F.
