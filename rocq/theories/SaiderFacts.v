(** Lemmas about Saider. *)
From Verif Require Import Base Utf8 MatterTables Matter StdStr Data Spec MatterDefs Crypto Prims PrimsDefs DataDefs Common CommonDefs Saider SaiderDefs.
From Verif Require Import BaseFacts UtilFacts MatterFacts MatterFacts2 MatterFacts3 SpecFacts MatterFacts4 StdStrFacts MatterThms PrimsFacts PrimsFacts2 DataFacts JsonFacts CommonFacts CommonFacts2.

(** ** maps *)
Lemma existsb_key k (l : list bytes) : existsb (bytes_eqb k) l = true <-> In k l.
Proof.
  rewrite existsb_exists. split.
  - intros [x [I E]]. apply bytes_eqb_eq in E. subst. exact I.
  - intros I. exists k. split; [exact I|]. apply bytes_eqb_eq. reflexivity.
Qed.
Lemma beqb_refl k : bytes_eqb k k = true. Proof. apply bytes_eqb_eq. reflexivity. Qed.
Lemma put_insert k x o : NoDup (map fst o) -> map_insert k x o = put k x o.
Proof.
  unfold put. induction o as [|[k' v] o IH]; intros N; [reflexivity|]. cbn [map_insert map fst existsb]. inversion N as [|? ? N1 N2]; subst.
  destruct (bytes_eqb k k') eqn:E.
  - apply bytes_eqb_eq in E. subst k'. cbn [orb]. f_equal. symmetry. rewrite <- (map_id o) at 2. apply map_ext_in. intros [k2 v2] I. cbn [fst].
    destruct (bytes_eqb k k2) eqn:E2; [|reflexivity]. apply bytes_eqb_eq in E2. subst k2. exfalso. apply N1. apply in_map_iff. exists (k, v2). auto.
  - cbn [orb]. rewrite IH by auto. destruct (existsb (bytes_eqb k) (map fst o)); reflexivity.
Qed.
Lemma put_NoDup k x o : NoDup (map fst o) -> NoDup (map fst (put k x o)).
Proof. intros N. rewrite <- put_insert by auto. apply map_insert_NoDup; auto. Qed.
Lemma put_keys k x o : In k (map fst o) -> NoDup (map fst o) -> map fst (put k x o) = map fst o.
Proof. intros I N. rewrite <- put_insert by auto. apply map_insert_keys; auto. Qed.
Lemma put_In k x o : NoDup (map fst o) -> In k (map fst (put k x o)).
Proof. intros N. rewrite <- put_insert by auto. destruct (key_dec k (map_insert k x o)) as [I|I]; [exact I|]. apply map_get_None in I. rewrite map_get_insert, beqb_refl in I. discriminate. Qed.
Lemma put_get k x o k' : NoDup (map fst o) -> map_get k' (put k x o) = if bytes_eqb k' k then Some x else map_get k' o.
Proof. intros N. rewrite <- put_insert by auto. apply map_get_insert. Qed.
(** maps with the same keys and values are equal *)
Lemma map_ext_get {A} (o o' : list (bytes * A)) : NoDup (map fst o) -> map fst o = map fst o' -> (forall k, map_get k o = map_get k o') -> o = o'.
Proof.
  revert o'. induction o as [|[k v] o IH]; intros [|[k' v'] o'] N E G; try discriminate; [reflexivity|].
  injection E as -> E. inversion N as [|? ? N1 N2]; subst. pose proof (G k') as G1. cbn [map_get] in G1. rewrite beqb_refl in G1. injection G1 as ->. f_equal. apply IH; auto.
  intros k. specialize (G k). cbn [map_get] in G. destruct (bytes_eqb k k') eqn:Ek; [|exact G]. apply bytes_eqb_eq in Ek. subst k.
  transitivity (@None A); [|symmetry]; apply map_get_None; [exact N1|]. rewrite <- E. exact N1.
Qed.
Lemma put_put k x y o : NoDup (map fst o) -> put k y (put k x o) = put k y o.
Proof.
  intros N. apply map_ext_get.
  - apply put_NoDup, put_NoDup; auto.
  - destruct (key_dec k o) as [I|I].
    + rewrite !put_keys; auto using put_NoDup. rewrite put_keys; auto.
    + rewrite put_keys by (auto using put_NoDup, put_In). rewrite <- !put_insert by auto. rewrite !map_insert_new by auto. rewrite !map_app. reflexivity.
  - intros k'. rewrite !put_get by auto using put_NoDup. destruct (bytes_eqb k' k); reflexivity.
Qed.
Lemma put_same k x o : NoDup (map fst o) -> map_get k o = Some x -> put k x o = o.
Proof.
  intros N G. assert (I : In k (map fst o)). { apply map_get_In in G. apply in_map_iff. exists (k, x). auto. }
  apply map_ext_get; [apply put_NoDup; auto|apply put_keys; auto|]. intros k'. rewrite put_get by auto. destruct (bytes_eqb k' k) eqn:E; [|reflexivity]. apply bytes_eqb_eq in E. subst. auto.
Qed.
Lemma without_cons k ks o : without (k :: ks) o = without ks (without [k] o).
Proof.
  unfold without. assert (F : forall (A : Type) (f g : A -> bool) l, filter f (filter g l) = filter (fun x => g x && f x) l).
  { intros A f g l. induction l as [|x l IH]; [reflexivity|]. cbn [filter]. destruct (g x); cbn [andb filter]; [destruct (f x); rewrite IH; reflexivity|exact IH]. }
  rewrite F. apply filter_ext. intros e. cbn [existsb]. rewrite orb_false_r, negb_orb. reflexivity.
Qed.
Lemma remove_without k o : NoDup (map fst o) -> (if contains_key k o then map_remove k o else o) = without [k] o.
Proof.
  unfold contains_key. induction o as [|[k' v] o IH]; intros N; [reflexivity|]. cbn [map_get map_remove map fst] in *. inversion N as [|? ? N1 N2]; subst. specialize (IH N2).
  assert (W : without [k] ((k', v) :: o) = if bytes_eqb k' k then without [k] o else (k', v) :: without [k] o).
  { unfold without at 1. cbn [filter existsb fst]. rewrite orb_false_r. destruct (bytes_eqb k' k); reflexivity. }
  rewrite W. destruct (bytes_eqb k k') eqn:E.
  - apply bytes_eqb_eq in E. subst k'. rewrite beqb_refl. apply map_get_None in N1. rewrite N1 in IH. exact IH.
  - assert (E' : bytes_eqb k' k = false). { destruct (bytes_eqb k' k) eqn:E'; [|reflexivity]. apply bytes_eqb_eq in E'. subst. rewrite beqb_refl in E. discriminate. }
    rewrite E', <- IH. destruct (map_get k o); reflexivity.
Qed.
Lemma without_keys ks o : map fst (without ks o) = filter (fun k => negb (existsb (bytes_eqb k) ks)) (map fst o).
Proof. unfold without. induction o as [|e o IH]; [reflexivity|]. cbn [filter map]. destruct (negb _); cbn [map]; rewrite IH; reflexivity. Qed.
Lemma without_NoDup ks o : NoDup (map fst o) -> NoDup (map fst (without ks o)).
Proof. intros N. rewrite without_keys. apply NoDup_filter; auto. Qed.
Lemma fold_without ks o : NoDup (map fst o) -> fold_left (fun m k => if contains_key k m then map_remove k m else m) ks o = without ks o.
Proof.
  revert o. induction ks as [|k ks IH]; intros o N.
  - cbn. unfold without. symmetry. rewrite <- (app_nil_r o) at 1. clear N. induction o as [|e o IH]; [reflexivity|]. cbn. f_equal. rewrite app_nil_r in *. exact IH.
  - cbn [fold_left]. rewrite remove_without by auto. rewrite IH by (apply without_NoDup; auto). symmetry. apply without_cons.
Qed.
Lemma without_get ks o k : map_get k (without ks o) = if existsb (bytes_eqb k) ks then None else map_get k o.
Proof.
  unfold without. induction o as [|[k' v] o IH]; cbn [filter map_get fst]. { destruct (existsb _ _); reflexivity. }
  destruct (existsb (bytes_eqb k') ks) eqn:E; cbn [negb map_get]; destruct (bytes_eqb k k') eqn:Ek; rewrite ?IH; auto; apply bytes_eqb_eq in Ek; subst; rewrite E; reflexivity.
Qed.
Lemma without_app ks o o' : without ks (o ++ o') = without ks o ++ without ks o'. Proof. apply filter_app. Qed.
(** the replaced entry does not matter outside it *)
Lemma without_put k x ks o : NoDup (map fst o) -> In k ks -> without ks (put k x o) = without ks o.
Proof.
  intros N I. destruct (key_dec k o) as [Ik|Ik].
  - apply map_ext_get.
    + apply without_NoDup, put_NoDup; auto.
    + rewrite !without_keys, put_keys; auto.
    + intros k'. rewrite !without_get, put_get by auto. destruct (existsb (bytes_eqb k') ks) eqn:E; [reflexivity|]. destruct (bytes_eqb k' k) eqn:Ek; [|reflexivity]. apply bytes_eqb_eq in Ek. subst. apply existsb_key in I. congruence.
  - rewrite <- put_insert by auto. rewrite map_insert_new by auto. rewrite without_app. cbn. apply existsb_key in I. rewrite I. cbn. apply app_nil_r.
Qed.

(** ** sizes *)
Lemma match_before p x y : Forall (fun f => f 34 = false) p -> forall h, In 34 h -> match_at p (h ++ x) = match_at p (h ++ y).
Proof.
  induction 1 as [|f p Hf Hp IH]; intros h I; [reflexivity|]. destruct h as [|c h]; [destruct I|]. cbn [app match_at]. destruct (f c) eqn:E; [|reflexivity]. cbn [andb].
  apply IH. destruct I as [->|I]; [congruence|exact I].
Qed.
(** replacing a version string at the same place *)
Lemma rever_find_swap h w w' t t' : version_like w -> version_like w' -> rever_find ((h ++ [34]) ++ w ++ t) = rever_find ((h ++ [34]) ++ w' ++ t').
Proof.
  intros W W'. assert (Z : forall u s, version_like u -> rever_find (u ++ s) = Some 0).
  { intros u s U. assert (R : rever_at (u ++ s) = true) by (apply rever_at_iff; eauto). destruct (u ++ s) eqn:Eu; cbn [rever_find]; rewrite R; reflexivity. }
  assert (P : Forall (fun f : N -> bool => f 34 = false) rever_pattern). { unfold rever_pattern. repeat (constructor; [reflexivity|]). constructor. }
  induction h as [|c h IH].
  - cbn [app rever_find]. rewrite !Z by auto. unfold rever_at at 1 2. cbn [rever_pattern match_at]. reflexivity.
  - cbn [app rever_find]. rewrite IH. unfold rever_at. change (c :: (h ++ [34]) ++ w ++ t) with ((c :: h ++ [34]) ++ w ++ t). change (c :: (h ++ [34]) ++ w' ++ t') with ((c :: h ++ [34]) ++ w' ++ t').
    rewrite (match_before rever_pattern (w ++ t) (w' ++ t')); [reflexivity|auto|]. right. apply in_or_app. right. left. reflexivity.
Qed.
(** the JSON of an object, around the text of an entry *)
Lemma json_around k w o : map_get k o = Some (VStr w) -> plain w -> exists h t, forall w', plain w' -> to_json (VObj (map_insert k (VStr w') o)) = (h ++ [34]) ++ w' ++ t.
Proof.
  intros G Pw. assert (S : exists pre post, o = pre ++ (k, VStr w) :: post /\ ~ In k (map fst pre)).
  { clear Pw. induction o as [|[k' v] o IH]; [discriminate|]. cbn [map_get] in G. destruct (bytes_eqb k k') eqn:E.
    - apply bytes_eqb_eq in E. injection G as ->. subst. exists [], o. split; [reflexivity|intros []].
    - destruct (IH G) as [pre [post [-> N]]]. exists ((k', v) :: pre), post. split; [reflexivity|]. intros [I|I]; [|auto]. cbn in I. subst. rewrite beqb_refl in E. discriminate. }
  destruct S as [pre [post [-> N]]]. destruct (obj_head_form k pre) as [h Eh]. exists (h ++ [58]), (obj_tail post). intros w' P'. rewrite map_insert_mid by auto. rewrite obj_split by auto. rewrite Eh. rewrite <- !app_assoc. reflexivity.
Qed.
Lemma map_insert_same {A} k (x : A) o : map_get k o = Some x -> map_insert k x o = o.
Proof.
  induction o as [|[k' v] o IH]; [discriminate|]. cbn [map_get map_insert]. destruct (bytes_eqb k k') eqn:E; [intros H; injection H as ->; reflexivity|]. intros H. rewrite IH by auto. reflexivity.
Qed.
Lemma sizeify_ok o i m k kind : In i idents -> m < 2 ^ 24 -> map_get (s2b "v") o = Some (VStr (version_text i 1 0 (s2b "JSON") m)) -> kind_ok kind ->
  rever_find (to_json (VObj o)) = Some k -> k <= 12 -> let n := as_u32 (len (to_json (VObj o))) in n < 2 ^ 24 ->
  sizeify (VObj o) kind = Ok (SZ (take k (to_json (VObj o)) ++ version_text i 1 0 (s2b "JSON") n ++ drop (k + 17) (to_json (VObj o))) i (s2b "JSON")
         (VObj (map_insert (s2b "v") (VStr (version_text i 1 0 (s2b "JSON") n)) o)) (Ver 1 0)).
Proof.
  intros Hi Hm G Hk F Lk n Ln. unfold sizeify. cbn [to_map obind vget]. unfold contains_key. rewrite G. cbn [negb obind to_string]. rewrite deversify_text by (auto; lia). cbn [obind vp_version vp_kind vp_ident].
  change (version_eqb (Ver 1 0) current_version) with true. cbn [negb].
  assert (Ek : unwrap_or kind (s2b "JSON") = s2b "JSON") by (destruct Hk as [-> | ->]; reflexivity). rewrite Ek. change (mem_code (s2b "JSON") serials) with true. cbn [negb].
  unfold dumps. cbn [unwrap_or]. change (bytes_eqb (s2b "JSON") (s2b "JSON")) with true. cbv iota. cbn [obind]. rewrite F. unfold maximum_start_size. replace (12 <? k) with false by lia.
  fold n. rewrite versify_text by (auto; lia). cbn [obind]. cbv zeta. unfold version_full_size.
  pose proof (rever_find_spec (to_json (VObj o))) as Sp. rewrite F in Sp. destruct Sp as [L _].
  replace (len _ =? len (to_json (VObj o))) with true; [reflexivity|]. symmetry. apply N.eqb_eq. rewrite !len_app, len_take, len_drop, version_text_len by auto using known_tag, json_tag. lia.
Qed.
(** The crate's sizing of an object is [sized_as]. *)
Definition sized_by (kind : option bytes) (o : list (bytes * data)) : outcome (option bytes * data) :=
  if contains_key (s2b "v") o then r <- sizeify (VObj o) kind ;; Ok (Some (sz_kind r), sz_ked r) else Ok (kind, VObj o).
Lemma has_key {A} k (o : list (bytes * A)) : contains_key k o = true <-> In k (map fst o).
Proof. unfold contains_key. destruct (map_get k o) eqn:E; split; intros H; auto; try discriminate. { apply map_get_In in E. apply in_map_iff. exists (k, a). auto. } apply map_get_None in E. contradiction. Qed.
Lemma sized_as_iff kind o : NoDup (map fst o) -> forall k' s, (sized_by kind o = Ok (k', s) /\ (contains_key (s2b "v") o = false -> kind_ok kind)) <->
  kind_ok kind /\ (exists o', s = VObj o' /\ sized_as o o') /\ k' = (if contains_key (s2b "v") o then Some (s2b "JSON") else kind).
Proof.
  intros N k' s. unfold sized_by. split.
  - intros [H1 H2]. destruct (contains_key (s2b "v") o) eqn:C.
    + destruct (sizeify (VObj o) kind) as [r| |] eqn:Z; try discriminate. cbn [obind] in H1. apply Ok_inj in H1. injection H1 as <- <-.
      apply sizeify_inv in Z as [o2 [i [m [k [E [Hi [Hm [G [Hk [F [Lk [Hn ->]]]]]]]]]]]]. injection E as <-. cbn [sz_kind sz_ked]. split; [exact Hk|]. split; [|reflexivity].
      eexists. split; [reflexivity|]. right. exists i, m, k. split; [apply map_get_In; exact G|]. split; [destruct Hi as [<-|[<-|[]]]; auto|]. split; [exact Hm|]. split; [apply rever_find_first; exact F|]. split; [exact Lk|].
      split; [exact Hn|]. apply put_insert; auto.
    + apply Ok_inj in H1. injection H1 as <- <-. split; [auto|]. split; [|reflexivity]. exists o. split; [reflexivity|]. left. split; [|reflexivity]. intros I. apply has_key in I. congruence.
  - intros [Hk [[o' [-> S]] ->]]. split; [|auto]. destruct S as [[Nv ->]|[i [m [k [I [Hi [Hm [F [Lk [Ln ->]]]]]]]]]].
    + destruct (contains_key (s2b "v") o) eqn:C; [|reflexivity]. apply has_key in C. contradiction.
    + apply In_map_get in I; [|auto]. assert (C : contains_key (s2b "v") o = true) by (unfold contains_key; rewrite I; reflexivity). rewrite C.
      apply rever_find_first in F. rewrite (sizeify_ok o i m k kind); auto. 2:{ destruct Hi as [-> | ->]; cbn; auto. } cbn [obind sz_kind sz_ked]. rewrite put_insert by auto. reflexivity.
Qed.
Lemma sized_by_total kind o : sized_by kind o <> Panic.
Proof. unfold sized_by. destruct (contains_key _ _); [|discriminate]. destruct (sizeify (VObj o) kind) eqn:E; [discriminate|discriminate|]. apply sizeify_total in E. destruct E. Qed.
(** Sizing again changes nothing. *)
Lemma sized_as_again o o' : NoDup (map fst o) -> sized_as o o' -> sized_as o' o' /\ NoDup (map fst o') /\ map fst o' = map fst o /\ (forall k, k <> s2b "v" -> map_get k o' = map_get k o) /\ len (to_json (VObj o')) = len (to_json (VObj o)).
Proof.
  intros N S. destruct S as [[Nv ->]|[i [m [k [I [Hi [Hm [F [Lk [Ln ->]]]]]]]]]].
  - split; [left; auto|auto].
  - assert (Iv : In (s2b "v") (map fst o)) by (apply in_map_iff; eexists; split; [|exact I]; reflexivity).
    assert (Ii : In i idents) by (destruct Hi as [-> | ->]; cbn; auto).
    set (n := len (to_json (VObj o)) mod 2 ^ 32) in *. set (x := VStr (version_text i 1 0 (s2b "JSON") n)).
    pose proof (In_map_get _ _ _ N I) as G.
    assert (P1 : plain (version_text i 1 0 (s2b "JSON") m)) by (apply plain_version, vtext_like; auto; lia).
    assert (P2 : plain (version_text i 1 0 (s2b "JSON") n)) by (apply plain_version, vtext_like; auto; lia).
    destruct (json_around _ _ _ G P1) as [h [t J]]. pose proof (J _ P1) as J1. pose proof (J _ P2) as J2. rewrite map_insert_same in J1 by auto. rewrite put_insert in J2 by auto. fold x in J2.
    assert (L : len (to_json (VObj (put (s2b "v") x o))) = len (to_json (VObj o))). { rewrite J1, J2, !len_app, !version_text_len by auto using known_tag, json_tag. reflexivity. }
    split; [|split; [apply put_NoDup; auto|split; [apply put_keys; auto|split; [|exact L]]]].
    + right. exists i, n, k. split; [apply map_get_In; rewrite put_get, beqb_refl by auto; reflexivity|]. split; [exact Hi|]. split; [exact Ln|]. split.
      * apply rever_find_first. apply rever_find_first in F. rewrite J2. rewrite J1 in F. rewrite <- F. apply rever_find_swap; apply vtext_like; auto; lia.
      * split; [exact Lk|]. rewrite L. fold n. split; [exact Ln|]. symmetry. apply put_same; [apply put_NoDup; auto|]. rewrite put_get, beqb_refl by auto. reflexivity.
    + intros k' Nk. rewrite put_get by auto. destruct (bytes_eqb k' (s2b "v")) eqn:E; [|reflexivity]. apply bytes_eqb_eq in E. contradiction.
Qed.
Lemma sized_as_fun o o1 o2 : NoDup (map fst o) -> sized_as o o1 -> sized_as o o2 -> o1 = o2.
Proof.
  intros N S1 S2. assert (A : forall o', sized_as o o' -> sized_by None o = Ok (if contains_key (s2b "v") o then Some (s2b "JSON") else None, VObj o')).
  { intros o' S. apply (sized_as_iff None o N). split; [left; reflexivity|]. split; [eauto|reflexivity]. }
  apply A in S1, S2. rewrite S1 in S2. apply Ok_inj in S2. congruence.
Qed.
