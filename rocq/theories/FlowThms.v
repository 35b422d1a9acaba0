(** Property C61: from saidify to a verified message. *)
From Verif Require Import Base Utf8 MatterTables Matter StdStr Data Json Spec MatterDefs Crypto Prims PrimsDefs DataDefs Common CommonDefs Saider SaiderDefs Sadder SadderDefs.
From Verif Require Import BaseFacts B64Facts UtilFacts MatterFacts MatterFacts2 MatterFacts3 SpecFacts MatterFacts4 StdStrFacts MatterThms PrimsFacts PrimsFacts2 DataFacts JsonFacts ImportFacts CommonFacts CommonFacts2 CommonThms DataThms SaiderFacts SaiderFacts2 SaiderThms SadderFacts SadderFacts2 SadderThms.

Lemma put_app k x a b : ~ In k (map fst a) -> In k (map fst b) -> put k x (a ++ b) = a ++ put k x b.
Proof.
  intros Na Ib. unfold put. rewrite map_app. assert (E1 : existsb (bytes_eqb k) (map fst a ++ map fst b) = true) by (apply existsb_key; apply in_app_iff; auto). assert (E2 : existsb (bytes_eqb k) (map fst b) = true) by (apply existsb_key; auto). rewrite E1, E2, map_app. f_equal.
  rewrite <- (map_id a) at 2. apply map_ext_in. intros [k' y] I. cbn [fst]. destruct (bytes_eqb k k') eqn:E; [|reflexivity]. apply bytes_eqb_eq in E. subst. destruct Na. apply in_map_iff. exists (k', y). auto.
Qed.
Lemma put_head k x y a : put k x ((k, y) :: a) = (k, x) :: map (fun e => if bytes_eqb k (fst e) then (k, x) else e) a.
Proof. unfold put. cbn [map fst existsb]. rewrite beqb_refl. reflexivity. Qed.
Lemma map_same_keys k (x : data) a : ~ In k (map fst a) -> map (fun e => if bytes_eqb k (fst e) then (k, x) else e) a = a.
Proof.
  intros N. rewrite <- (map_id a) at 2. apply map_ext_in. intros [k' y] I. cbn [fst]. destruct (bytes_eqb k k') eqn:E; [|reflexivity]. apply bytes_eqb_eq in E. subst. destruct N. apply in_map_iff. exists (k', y). auto.
Qed.
Lemma put_other k x k' y a : k <> k' -> In k (map fst a) -> put k x ((k', y) :: a) = (k', y) :: put k x a.
Proof.
  intros N I. unfold put. cbn [map fst existsb]. assert (E : existsb (bytes_eqb k) (map fst a) = true) by (apply existsb_key; auto). rewrite E, orb_true_r. destruct (bytes_eqb k k') eqn:Ek; [apply bytes_eqb_eq in Ek; contradiction|reflexivity].
Qed.
Lemma survives_put (F : Floats) k t o : survives F (VObj o) -> In k (map fst o) -> utf8_valid t = true -> survives F (VObj (put k (VStr t) o)).
Proof.
  intros [G [T D]] I U. inversion G as [| | | | | |? N M]; subst. inversion T as [| | | | | |? Mt]; subst.
  assert (X : forall k' v, In (k', v) (put k (VStr t) o) -> (k' = k /\ v = VStr t) \/ In (k', v) o). { intros k' v H. rewrite <- put_insert in H by exact N. apply map_insert_In in H as [H|H]; [injection H as -> ->; auto|auto]. }
  split; [|split].
  - constructor; [apply put_NoDup; exact N|]. intros k' v H. apply X in H as [[-> ->]|H]; [constructor|eauto].
  - constructor. intros k' v H. apply X in H as [[-> ->]|H]; [|eauto]. split; [|constructor; exact U]. apply in_map_iff in I as [[k0 v0] [<- I]]. apply (Mt _ _ I).
  - unfold put. assert (existsb (bytes_eqb k) (map fst o) = true) as -> by (apply existsb_key; auto). eapply N.le_trans; [|exact D]. clear. cbn [depth]. apply N.add_le_mono_l. induction o as [|[k' v] o IH]; cbn [map fold_right fst]; [lia|]. destruct (bytes_eqb k k'); cbn [snd depth]; lia.
Qed.
Lemma NoDup_app_r {A} (a b : list A) : NoDup (a ++ b) -> NoDup b.
Proof. induction a as [|x a IH]; [auto|]. cbn [app]. intros H. inversion H; auto. Qed.
(** C61: an object in which "v" comes first (or within the first 7 characters) and
    that has a "d" is saidified; the result makes a Serder with exactly that object and
    identifier; its raw bytes, alone or before any text, load as the same Serder;
    and the loaded identifier verifies the loaded object. *)
Lemma C61_end_to_end_pf : forall (P : Profile) (C : Crypto) (F : Floats) (code : option bytes) (pre post : list (bytes * data)) (ident : bytes) (old : N) (x : matter) (sad : data) (tail : bytes),
  hash_contract C -> ~ In (s2b "d") (map fst pre) -> len (to_json (VObj pre)) <= 7 ->
  let o := pre ++ (s2b "v", VStr (version_text ident 1 0 (s2b "JSON") old)) :: post in
  survives F (VObj o) -> len (to_json sad) < 2 ^ 32 -> old < 2 ^ 24 -> utf8_valid tail = true ->
  saidify (VObj o) code None None None = Ok (x, sad) ->
  forall new, ident = s2b "KERI" /\ new = serder_new \/ ident = s2b "ACDC" /\ new = creder_new ->
  exists s, new code None None (Some sad) None = Ok s /\ sd_ked s = sad /\ sd_saider s = x /\ sd_raw s = to_json sad /\
    new code (Some (sd_raw s ++ tail)) None None None = Ok s /\
    forall prefixed versioned, said_verify (sd_saider s) (sd_ked s) prefixed versioned None None None = Ok true.
Proof.
  intros P C F code pre post i old x sad tail HC Nd L o Sv Ls Lo Ut H new Hnew.
  pose proof Sv as [G _]. inversion G as [| | | | | |? N M]; subst. clear G M.
  assert (Hi : In i idents) by (destruct Hnew as [[-> _]|[-> _]]; cbn; auto).
  assert (Np : ~ In (s2b "v") (map fst pre) /\ ~ In (s2b "v") (map fst post)). { unfold o in N. rewrite map_app in N. apply NoDup_remove_2 in N. split; intros I; apply N; apply in_app_iff; auto. } destruct Np as [Nv Nv2].
  assert (Iv : In (s2b "v") (map fst o)). { unfold o. rewrite map_app. apply in_app_iff. right. left. reflexivity. }
  pose proof (C51_saidify_size_pf P C o code None None None x sad HC N H Iv) as [Lz [i' [old' [Hi' [_ Ev]]]]]. clear Iv. rewrite (N.mod_small _ _ Ls) in *.
  pose proof (fun p v => C51_saidify_verifies_pf P C o code None None None x sad p v HC N H) as Vfy.
  apply C51_saidify_pf in H; auto. cbn [unwrap_or] in H. destruct H as [Il [Ic [_ [o' [q [S [Ex [Eq' Es]]]]]]]].
  assert (Id : In (s2b "d") (map fst post)). { unfold o in Il. rewrite map_app in Il. apply in_app_iff in Il as [I|[I|I]]; [contradiction|discriminate|exact I]. }
  assert (W : forall y, put (s2b "d") y o = pre ++ (s2b "v", VStr (version_text i 1 0 (s2b "JSON") old)) :: put (s2b "d") y post).
  { intros y. unfold o. rewrite put_app by (auto; right; exact Id). rewrite put_other by (auto; discriminate). reflexivity. }
  assert (So : exists n, n < 2 ^ 24 /\ o' = pre ++ (s2b "v", VStr (version_text i 1 0 (s2b "JSON") n)) :: put (s2b "d") (placeholder (unwrap_or code (s2b "E"))) post).
  { destruct S as [[Nv' _]|[j [m [k [Iv [Hj [Hm [_ [_ [Hn ->]]]]]]]]]]; [destruct Nv'; rewrite W, map_app; apply in_app_iff; right; left; reflexivity|].
    apply In_map_get in Iv; [|apply put_NoDup; exact N]. rewrite W, map_get_mid in Iv by exact Nv. injection Iv as Iv. apply vtext_inj in Iv as [-> _]; [|apply known_tag; auto|apply known_tag; destruct Hj as [-> | ->]; cbn; auto|auto|auto].
    eexists. split; [exact Hn|]. rewrite W. rewrite put_app by (auto; left; reflexivity). rewrite put_head. rewrite map_same_keys; [reflexivity|]. rewrite put_keys; auto. unfold o in N. rewrite map_app in N. apply NoDup_app_r in N. inversion N; auto. }
  destruct So as [n [Hn Eo]]. rewrite Eo in Es. clear S. assert (Np2 : NoDup (map fst post)) by (unfold o in N; rewrite map_app in N; apply NoDup_app_r in N; inversion N; auto).
  rewrite put_app in Es by (auto; right; rewrite put_keys; auto). rewrite put_other in Es by (try discriminate; rewrite put_keys; auto). rewrite put_put in Es by exact Np2.
  assert (En : n = len (to_json sad)).
  { remember (len (to_json sad)) as z eqn:Ez in Ev, Lz |- *. clear Ez. rewrite Es in Ev. cbn [vget] in Ev. rewrite map_get_mid in Ev by exact Nv. apply Ok_inj in Ev. injection Ev as Ev. apply vtext_inj in Ev as [_ Ev]; [exact Ev|apply known_tag; auto|apply known_tag; destruct Hi' as [-> | ->]; cbn; auto|auto|].
    exact Lz. }
  assert (Ux : utf8_valid q = true /\ parse_text q = Ok x).
  { destruct (code_size _ Ic) as [w Hw]. destruct (HC _ w (to_json (VObj (without [] o'))) Hw) as [Lr Br]. rewrite Ex in Eq'. pose proof (said_constructed _ _ w Hw Lr Br) as D. destruct (said_text _ D) as [q' [Q' Pq]]. rewrite Eq' in Q'. apply Ok_inj in Q'. subst q'.
    split; [|rewrite Ex; exact Pq]. destruct (said_text_len _ q D Eq') as [_ [_ A]]. apply utf8_ascii_list. intros ch Ich. unfold all_b64 in A. rewrite forallb_forall in A. apply A in Ich. apply is_b64_ascii. exact Ich. }
  destruct Ux as [Uq Pq].
  set (obj w := VObj (pre ++ (s2b "v", VStr w) :: put (s2b "d") (VStr q) post)). assert (Eo2 : sad = obj (version_text i 1 0 (s2b "JSON") n)) by exact Es.
  set (s := Sdr (unwrap_or code (s2b "E")) (to_json sad) sad i (s2b "JSON") n (Ver 1 0) x).
  assert (Mk : made P i (unwrap_or code (s2b "E")) None obj (version_text i 1 0 (s2b "JSON") n) s).
  { unfold made. rewrite <- Eo2, (N.mod_small _ _ Ls), <- En. exists n, x. split; [exact Hn|]. split; [reflexivity|]. split; [auto|]. split; [exact Hn|]. rewrite <- Eo2. split; [|reflexivity].
    exists q. split; [|split; [exact Pq|split; [rewrite Ex; reflexivity|exact Ic]]]. rewrite Es. cbn [vget]. assert (X : map_get (s2b "d") (pre ++ (s2b "v", VStr (version_text i 1 0 (s2b "JSON") n)) :: put (s2b "d") (VStr q) post) = Some (VStr q)); [|rewrite X; reflexivity].
    apply In_map_get. { rewrite map_app. cbn [map fst]. rewrite put_keys by auto. unfold o in N. rewrite map_app in N. exact N. } apply in_app_iff. right. right. apply map_get_In. rewrite put_get, beqb_refl by exact Np2. reflexivity. }
  assert (New : new code None None (Some sad) None = Ok s). { rewrite Eo2. destruct Hnew as [[E ->]|[E ->]]; rewrite E in Mk; apply (C55_from_ked_pf P C F code None None pre (put (s2b "d") (VStr q) post) _ s Nv L); rewrite E; exact Mk. }
  exists s. split; [exact New|]. split; [reflexivity|]. split; [reflexivity|]. split; [reflexivity|].
  assert (Sv2 : survives F sad). { rewrite Es. apply survives_version with (version_text i 1 0 (s2b "JSON") old); auto. rewrite <- W. apply survives_put; auto. }
  split; [|exact Vfy].
  assert (Hn2 : new = serder_new \/ new = creder_new) by (destruct Hnew as [[_ ->]|[_ ->]]; auto). rewrite Es in New, Ls, Sv2.
  apply (C55_consistent_pf P C F code None None pre _ _ s Nv L Ls new Hn2 New); auto.
Qed.
(** a concrete run *)
Lemma C61_end_to_end_ex_pf : forall P : Profile, let o := [(s2b "v", VStr (version_text (s2b "KERI") 1 0 (s2b "JSON") 0)); (s2b "t", VStr (s2b "icp")); (s2b "d", VStr [])] in
  survives toy_floats (VObj o) /\ hash_contract toy_crypto /\ exists x sad s, saidify (H0 := toy_crypto) (VObj o) None None None None = Ok (x, sad) /\ len (to_json sad) = 86 /\
  serder_new (H0 := toy_crypto) (H1 := toy_floats) None None None (Some sad) None = Ok s /\ sd_size s = 86 /\ m_raw (sd_saider s) = rep 86 32.
Proof.
  intros P o. split; [|split; [apply C51_saidify_ex_pf|]].
  - split; [|split; [|vm_compute; discriminate]].
    + constructor; [repeat constructor; cbn; intuition discriminate|]. intros k v [E|[E|[E|[]]]]; injection E as <- <-; constructor.
    + constructor. intros k v [E|[E|[E|[]]]]; injection E as <- <-; split; try (vm_compute; reflexivity); constructor; vm_compute; reflexivity.
  - eexists _, _, _. split; [vm_compute; reflexivity|]. split; [vm_compute; reflexivity|]. split; [vm_compute; reflexivity|]. split; vm_compute; reflexivity.
Qed.
