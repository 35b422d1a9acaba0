(** Property C73: self-addressing inception events. *)
From Verif Require Import Base Utf8 MatterTables Matter StdStr Data Json Spec MatterDefs Crypto Prims PrimsDefs DataDefs Common CommonDefs Saider SaiderDefs Sadder SadderDefs Prefixer PrefixerDefs InceptDefs.
From Verif Require Import BaseFacts B64Facts UtilFacts MatterFacts MatterFacts2 MatterFacts3 SpecFacts MatterFacts4 StdStrFacts MatterThms PrimsFacts PrimsFacts2 DataFacts JsonFacts ImportFacts CommonFacts CommonFacts2 CommonThms DataThms SaiderFacts SaiderFacts2 SaiderThms SadderFacts SadderFacts2 SadderThms PrefixerFacts PrefixerThms FlowThms SignerToy.

Notation vt n := (version_text (s2b "KERI") 1 0 (s2b "JSON") n).

Lemma len_swap k a b o : NoDup (map fst o) -> plain a -> plain b -> len a = len b -> len (to_json (VObj (put k (VStr a) o))) = len (to_json (VObj (put k (VStr b) o))).
Proof.
  intros N Pa Pb L. assert (G : map_get k (put k (VStr a) o) = Some (VStr a)) by (rewrite put_get, beqb_refl by exact N; reflexivity).
  destruct (json_around _ _ _ G Pa) as (h & t & J). pose proof (J _ Pa) as J1. pose proof (J _ Pb) as J2. rewrite map_insert_same in J1 by exact G. rewrite put_insert in J2 by (apply put_NoDup; exact N). rewrite put_put in J2 by exact N.
  rewrite J1, J2, !len_app, L. reflexivity.
Qed.
Lemma put_comm k k' x y o : NoDup (map fst o) -> k <> k' -> In k (map fst o) -> In k' (map fst o) -> put k x (put k' y o) = put k' y (put k x o).
Proof.
  intros N D I I'. apply map_ext_get.
  - apply put_NoDup, put_NoDup, N.
  - rewrite !put_keys; auto; try apply put_NoDup; auto; rewrite put_keys; auto.
  - intros z. rewrite !put_get by (try apply put_NoDup; exact N). destruct (bytes_eqb z k) eqn:A; destruct (bytes_eqb z k') eqn:B; try reflexivity. apply bytes_eqb_eq in A, B. congruence.
Qed.
Lemma put_mid k x pre v y post : ~ In k (map fst pre) -> k <> v -> In k (map fst post) -> put k x (pre ++ (v, y) :: post) = pre ++ (v, y) :: put k x post.
Proof. intros N D I. rewrite put_app by (auto; right; exact I). rewrite put_other by auto. reflexivity. Qed.
Lemma event_sized (b : list (bytes * data)) text : NoDup (map fst b) -> event_text b text <-> exists r, sizeify (VObj b) None = Ok r /\ sz_raw r = text.
Proof.
  intros Nb. split.
  - intros (i & m & k & I & Hi & Hm & F & Lk & Hn & ->). apply (In_map_get _ _ _ Nb) in I. apply rever_find_first in F. rewrite (sizeify_ok b i m k None); auto; [|destruct Hi as [-> | ->]; cbn; auto|left; reflexivity]. eexists. split; [reflexivity|]. reflexivity.
  - intros (r & Es & <-). apply sizeify_inv in Es as (o2 & i & m & k & E & Hi & Hm & G & _ & F & Lk & Hn & ->). injection E as <-. cbn [sz_raw].
    exists i, m, k. split; [apply map_get_In; exact G|]. split; [destruct Hi as [<-|[<-|[]]]; auto|]. split; [exact Hm|]. cbv zeta. split; [apply rever_find_first; exact F|]. split; [exact Lk|]. split; [exact Hn|]. reflexivity.
Qed.
Lemma event_head pre post m text : ~ In (s2b "v") (map fst pre) -> len (to_json (VObj pre)) <= 7 -> m < 2 ^ 24 -> let obj n := pre ++ (s2b "v", VStr (vt n)) :: post in NoDup (map fst (obj m)) ->
  event_text (obj m) text <-> let n := len (to_json (VObj (obj m))) mod 2 ^ 32 in n < 2 ^ 24 /\ text = to_json (VObj (obj n)).
Proof.
  intros Nv L Hm obj N. rewrite event_sized by exact N. unfold obj at 1. rewrite (sizeify_eq pre post (s2b "KERI") m None Nv L ltac:(cbn; auto) Hm ltac:(auto)). fold (obj m). change (as_u32 (len (to_json (VObj (obj m))))) with (len (to_json (VObj (obj m))) mod 2 ^ 32). cbv zeta.
  set (n := len (to_json (VObj (obj m))) mod 2 ^ 32). destruct (N.ltb_spec n (2 ^ 24)) as [Ln|Ln]; split.
  - intros (r & E & <-). apply Ok_inj in E. subst r. split; [exact Ln|reflexivity].
  - intros [_ ->]. eexists. split; [reflexivity|reflexivity].
  - intros (r & E & _). discriminate E.
  - intros [H _]. Lia.lia.
Qed.
Lemma head_len pre post m n : m < 2 ^ 24 -> n < 2 ^ 24 -> len (to_json (VObj (pre ++ (s2b "v", VStr (vt m)) :: post))) = len (to_json (VObj (pre ++ (s2b "v", VStr (vt n)) :: post))).
Proof.
  intros Hm Hn. assert (Pl : forall x, x < 2 ^ 24 -> plain (vt x)). { intros x Hx. apply plain_version, (vtext_like (s2b "KERI") 1 0 x); [right; left; reflexivity|reflexivity|reflexivity|exact Hx]. }
  rewrite !obj_split by auto. rewrite !len_app, !version_text_len by (first [apply json_tag|apply known_tag; right; left; reflexivity]). reflexivity.
Qed.

(** C73: the prefix of an inception event with a digest code, stored in its "i" and its "d", makes a Serder with exactly that event, whose prefix and identifier both are that
    text; its bytes, alone or before any text, load as the same Serder; and the loaded event's prefix is derived from it again and verifies it.
    But the identifier does not verify as a self-addressing identifier (only "d" is blanked then), unless the digests of two different texts are the same. *)
Lemma C73_self_addressing_pf : forall (P : Profile) (C : Crypto) (F : Floats) (pre post : list (bytes * data)) (old : N) (allows : option (list bytes)) (c q tail : bytes) (m : matter),
  hash_contract C -> len (to_json (VObj pre)) <= 7 -> (forall k, In k [s2b "d"; s2b "i"] -> ~ In k (map fst pre) /\ In k (map fst post)) ->
  let o := pre ++ (s2b "v", VStr (version_text (s2b "KERI") 1 0 (s2b "JSON") old)) :: post in
  survives F (VObj o) -> old < 2 ^ 24 -> utf8_valid tail = true -> In c (map fst digest_sizes) ->
  prefixer_of_ked (VObj o) allows (Some c) = Ok m -> matter_qb64 m = Ok q ->
  let ked := put (s2b "d") (VStr q) (put (s2b "i") (VStr q) o) in len (to_json (VObj ked)) < 2 ^ 32 ->
  exists s k, serder_new (Some c) None None (Some (VObj ked)) None = Ok s /\ sd_ked s = VObj k /\ (forall e, e <> s2b "v" -> vget (VObj k) e = vget (VObj ked) e) /\
    serder_pre s = Ok q /\ sadder_said s = Ok q /\
    serder_new (Some c) (Some (sd_raw s ++ tail)) None None None = Ok s /\
    prefixer_of_ked (sd_ked s) allows None = Ok m /\ prefixer_verify m (sd_ked s) (Some true) = Ok true /\
    let blanked := to_json (VObj (blank c k)) in let saided := to_json (VObj (put (s2b "d") (placeholder c) k)) in
    m_raw m = x_hash c blanked /\ blanked <> saided /\
    (x_hash c blanked <> x_hash c saided -> forall prefixed versioned, said_verify (sd_saider s) (sd_ked s) prefixed versioned None None None = Ok false).
Proof.
  intros P C F pre post old allows c q tail m HC L Hk o Sv Lo Ut Ic H Q ked L32.
  pose proof Sv as [G _]. inversion G as [| | | | | |? No _]; subst. clear G.
  destruct (Hk (s2b "d") ltac:(cbn; auto)) as [Nd Id]. destruct (Hk (s2b "i") ltac:(cbn; auto)) as [Ni Ii]. clear Hk.
  assert (Nv : ~ In (s2b "v") (map fst pre)). { unfold o in No. rewrite map_app in No. apply NoDup_remove_2 in No. intros I. apply No, in_app_iff. auto. }
  assert (Np : NoDup (map fst post)) by (unfold o in No; rewrite map_app in No; apply NoDup_app_r in No; inversion No; auto).
  assert (Mid : forall k x y p, In k [s2b "d"; s2b "i"] -> In k (map fst p) -> put k x (pre ++ (s2b "v", y) :: p) = pre ++ (s2b "v", y) :: put k x p).
  { intros k x y p I Ip. apply put_mid; [destruct I as [<-|[<-|[]]]; assumption|destruct I as [<-|[<-|[]]]; discriminate|exact Ip]. }
  assert (Ii1 : forall x, In (s2b "d") (map fst (put (s2b "i") x post))) by (intros x; rewrite put_keys; auto).
  set (obj (x : N) (p : list (bytes * data)) := pre ++ (s2b "v", VStr (vt x)) :: p).
  assert (Two : forall x a b, put (s2b "d") a (put (s2b "i") b (obj x post)) = obj x (put (s2b "d") a (put (s2b "i") b post))).
  { intros x a b. unfold obj. rewrite Mid by (cbn; auto). rewrite Mid by (cbn; auto). reflexivity. }
  assert (Nobj : forall x p, map fst p = map fst post -> NoDup (map fst (obj x p))). { intros x p E. unfold obj. rewrite map_app. cbn [map fst]. rewrite E. unfold o in No. rewrite map_app in No. exact No. }
  assert (Kp : forall a b, map fst (put (s2b "d") a (put (s2b "i") b post)) = map fst post) by (intros a b; rewrite put_keys; auto; [rewrite put_keys; auto|apply put_NoDup; exact Np]).
  set (bpost := put (s2b "d") (placeholder c) (put (s2b "i") (placeholder c) post)). set (qpost := put (s2b "d") (VStr q) (put (s2b "i") (VStr q) post)).
  assert (Eked : ked = obj old qpost) by (unfold ked, o; rewrite (Two old); reflexivity).
  assert (Ebl : blank c o = obj old bpost) by (unfold blank, o; rewrite (Two old); reflexivity).
  pose proof H as H0. apply C54_digest_pf in H as (A & Hi & text & T & Em); auto. rewrite Ebl in T. apply event_head in T as [Ln ET]; auto. 2:{ apply Nobj, Kp. }
  fold (obj old bpost) in Ln, ET. cbv zeta in Ln, ET. set (n := len (to_json (VObj (obj old bpost))) mod 2 ^ 32) in *. change (text = to_json (VObj (obj n bpost))) in ET.
  destruct (code_size c Ic) as [w Hw]. destruct (HC c w text Hw) as [Lr Br]. pose proof (said_constructed c _ w Hw Lr Br) as D. rewrite <- Em in D. destruct (said_text _ D) as (q' & Q' & Pq). rewrite Q in Q'. apply Ok_inj in Q'. subst q'.
  destruct (said_text_len _ q D Q) as (Lq & Plq & Aq). assert (Ecm : m_code m = c) by (rewrite Em; reflexivity). rewrite Ecm in Lq.
  assert (Pp : plain (rep 35 (if len c =? 1 then 44 else 88))) by (destruct (len c =? 1); reflexivity).
  assert (Lp : len (rep 35 (if len c =? 1 then 44 else 88)) = len q) by (rewrite len_rep, Lq; reflexivity).
  assert (Iobj : forall x, In (s2b "i") (map fst (obj x post)) /\ In (s2b "d") (map fst (obj x post))) by (intros x; unfold obj; rewrite map_app; split; apply in_app_iff; right; right; assumption).
  assert (Len : forall x, len (to_json (VObj (obj x qpost))) = len (to_json (VObj (obj x bpost)))).
  { intros x. unfold qpost, bpost. rewrite <- !Two. assert (Nx : NoDup (map fst (obj x post))) by (apply Nobj; reflexivity). destruct (Iobj x) as [I1 I2]. unfold placeholder.
    rewrite (len_swap (s2b "d") q (rep 35 (if len c =? 1 then 44 else 88))) by (auto; apply put_NoDup; exact Nx).
    rewrite !(put_comm (s2b "d") (s2b "i")) by (auto; discriminate). rewrite (len_swap (s2b "i") q (rep 35 (if len c =? 1 then 44 else 88))) by (auto; apply put_NoDup; exact Nx). reflexivity. }
  assert (En : len (to_json (VObj ked)) mod 2 ^ 32 = n) by (rewrite Eked, Len; reflexivity).
  assert (Uq : utf8_valid q = true). { apply utf8_ascii_list. intros ch Ich. unfold all_b64 in Aq. rewrite forallb_forall in Aq. apply Aq in Ich. apply is_b64_ascii. exact Ich. }
  set (K := obj n qpost). assert (NK : NoDup (map fst K)) by (apply Nobj, Kp).
  assert (Gd : map_get (s2b "d") K = Some (VStr q)). { unfold K, qpost. rewrite <- Two, put_get, beqb_refl; [reflexivity|apply put_NoDup, Nobj; reflexivity]. }
  assert (Gi : map_get (s2b "i") K = Some (VStr q)). { unfold K, qpost. rewrite <- Two, put_get by (apply put_NoDup, Nobj; reflexivity). change (bytes_eqb (s2b "i") (s2b "d")) with false. cbv iota. rewrite put_get, beqb_refl; [reflexivity|apply Nobj; reflexivity]. }
  assert (IKd : In (s2b "d") (map fst K)) by (apply map_get_In in Gd; apply (in_map fst) in Gd; exact Gd). assert (IKi : In (s2b "i") (map fst K)) by (apply map_get_In in Gi; apply (in_map fst) in Gi; exact Gi).
  set (s := Sdr c (to_json (VObj K)) (VObj K) (s2b "KERI") (s2b "JSON") n (Ver 1 0) m).
  assert (Mk : made P (s2b "KERI") c None (fun x => VObj (pre ++ (s2b "v", VStr x) :: qpost)) (vt old) s).
  { unfold made. cbv zeta. fold (obj old qpost). rewrite <- Eked, En. fold (obj n qpost). fold K. exists old, m. split; [exact Lo|]. split; [reflexivity|]. split; [auto|]. split; [exact Ln|]. split; [|reflexivity].
    exists q. cbn [vget]. rewrite Gd. auto. }
  assert (New : serder_new (Some c) None None (Some (VObj ked)) None = Ok s) by (rewrite Eked; apply (C55_from_ked_pf P C F (Some c) None None pre qpost (vt old) s Nv L); exact Mk).
  assert (Svk : survives F (VObj ked)). { unfold ked. apply survives_put; [apply survives_put; [exact Sv|apply Iobj|exact Uq]|rewrite put_keys by (auto; apply (Iobj old)); apply (Iobj old)|exact Uq]. }
  rewrite Eked in New, L32, Svk. destruct (C55_consistent_pf P C F (Some c) None None pre qpost (vt old) s Nv L L32 serder_new (or_introl eq_refl) New) as (_ & _ & _ & _ & _ & _ & Oth & _ & _ & Re). fold (obj old qpost) in Oth, New. rewrite <- Eked in Oth, New.
  assert (BlK : blank c K = obj n bpost). { unfold K, qpost. rewrite <- Two. rewrite (blank_put c _ (s2b "d")); [|apply put_NoDup, Nobj; reflexivity|auto|rewrite put_keys by (try apply (Iobj n); apply Nobj; reflexivity); apply (Iobj n)]. rewrite (blank_put c _ (s2b "i")); [|apply Nobj; reflexivity|auto|apply (Iobj n)]. unfold blank. rewrite Two. reflexivity. }
  assert (TK : event_text (blank c K) text). { rewrite BlK. apply event_head; auto; [apply Nobj, Kp|]. cbv zeta. fold (obj n bpost). replace (len (to_json (VObj (obj n bpost))) mod 2 ^ 32) with n; [split; [exact Ln|exact ET]|]. unfold n at 1. f_equal. apply head_len; assumption. }
  assert (HiK : inception K).
  { destruct Hi as (ilk & J & E). exists ilk. split; [|exact E]. apply map_get_In. apply (In_map_get _ _ _ No) in J. rewrite <- J. 
    assert (X : vget (VObj K) (s2b "t") = vget (VObj ked) (s2b "t")) by (apply Oth; discriminate). cbn [vget] in X.
    assert (Y : map_get (s2b "t") ked = map_get (s2b "t") o). { unfold ked. rewrite !put_get by (try apply put_NoDup; exact No). reflexivity. }
    rewrite Y, J in X. destruct (map_get (s2b "t") K); [apply Ok_inj in X; congruence|discriminate X]. }
  exists s, K. split; [exact New|]. split; [reflexivity|]. split; [exact Oth|]. split; [unfold serder_pre; cbn [sd_ked vget]; unfold s; cbn [sd_ked vget]; rewrite Gi; reflexivity|]. split; [exact Q|]. split; [apply Re; auto|].
  split. { destruct (C54_code_pf P C K VNull allows c NK) as (_ & _ & X & _). cbn [sd_ked s]. rewrite (X q m (map_get_In _ _ _ Gi) Pq), Ecm. apply C54_digest_pf; auto. split; [exact A|]. split; [exact HiK|]. exists text. auto. }
  split. { apply C54_verify_digest_pf; auto. split; [exact HiK|]. rewrite Ecm. split; [exists text; split; [exact TK|rewrite Em; reflexivity]|]. intros _. exists q. split; [exact Q|apply map_get_In; exact Gi]. }
  cbv zeta. rewrite BlK, <- ET. split; [rewrite Em; reflexivity|]. split.
  - intros E. assert (Gs : map_get (s2b "i") (put (s2b "d") (placeholder c) K) = Some (VStr q)) by (rewrite put_get by exact NK; exact Gi).
    destruct (json_around _ _ _ Gs Plq) as (h & t & J). pose proof (J _ Plq) as J1. pose proof (J _ Pp) as J2. rewrite map_insert_same in J1 by exact Gs. rewrite put_insert in J2 by (apply put_NoDup; exact NK).
    fold (placeholder c) in J2. rewrite put_comm in J2 by (auto; discriminate). fold (blank c K) in J2. rewrite BlK, <- ET in J2.
    assert (X : text = to_json (VObj (put (s2b "d") (placeholder c) K))) by exact E. rewrite J1 in X. rewrite J2 in X. apply app_inv_head in X. apply (f_equal (take (len q))) in X. rewrite take_app_exact in X by exact Lp. rewrite take_app_exact in X by reflexivity.
    unfold all_b64 in Aq. rewrite <- X in Aq. destruct (len c =? 1); discriminate Aq.
  - intros Ne p v. cbn [sd_saider sd_ked s]. destruct (verify_eq P C m K p v None None None HC D NK) as (q2 & _ & ->). cbn [unwrap_or]. rewrite Ecm.
    destruct (said_derive (VObj K) (Some c) None (Some (s2b "d")) None) as [[raw ds]| |] eqn:Ed; [|reflexivity|apply derive_total in Ed; [destruct Ed|exact NK]].
    apply derive_iff in Ed as (_ & o' & -> & Sz & ->); auto. cbn [unwrap_or]. replace (without [] o') with (put (s2b "d") (placeholder c) K).
    + destruct (bytes_eqb (m_raw m) _) eqn:E; [|reflexivity]. apply bytes_eqb_eq in E. exfalso. apply Ne. rewrite Em in E. exact E.
    + assert (Wn : forall l : list (bytes * data), without [] l = l) by (induction l as [|e l IHl]; [reflexivity|]; cbn; f_equal; exact IHl). rewrite Wn. set (B := put (s2b "d") (placeholder c) K) in *. assert (NB : NoDup (map fst B)) by (apply put_NoDup; exact NK).
      assert (Gv : map_get (s2b "v") B = Some (VStr (vt n))). { unfold B. rewrite put_get by exact NK. change (bytes_eqb (s2b "v") (s2b "d")) with false. cbv iota. unfold K, obj. rewrite map_get_mid by exact Nv. reflexivity. }
      destruct Sz as [[Nx _]|(i' & m' & k & Iv & Hi' & Hm' & _ & _ & Hn' & ->)]. { destruct Nx. apply map_get_In in Gv. apply (in_map fst) in Gv. exact Gv. }
      apply (In_map_get _ _ _ NB) in Iv. rewrite Gv in Iv. injection Iv as Iv. apply vtext_inj in Iv as [<- _]; [|apply known_tag; right; left; reflexivity|apply known_tag; destruct Hi' as [-> | ->]; cbn; auto|exact Ln|exact Hm'].
      symmetry. apply put_same; [exact NB|]. rewrite Gv. do 4 f_equal. unfold B, placeholder. rewrite <- (len_swap (s2b "d") q) by auto. rewrite put_same by auto. unfold K. rewrite Len. unfold n at 1. f_equal. apply head_len; assumption.
Qed.
(** a run: the event, its prefix and identifier; the loaded event's prefix verifies it, its identifier does not *)
Lemma C73_self_addressing_ex_pf : forall P : Profile, let o := [(s2b "v", VStr (version_text (s2b "KERI") 1 0 (s2b "JSON") 0)); (s2b "t", VStr (s2b "icp")); (s2b "d", VStr []); (s2b "i", VStr []); (s2b "k", VArr [])] in
  survives toy_floats (VObj o) /\ hash_contract sum_crypto /\ exists m q s, prefixer_of_ked (C := sum_crypto) (VObj o) None (Some (s2b "E")) = Ok m /\ matter_qb64 m = Ok q /\
  let ked := put (s2b "d") (VStr q) (put (s2b "i") (VStr q) o) in serder_new (H0 := sum_crypto) (H1 := toy_floats) None None None (Some (VObj ked)) None = Ok s /\ sd_size s = 144 /\
  prefixer_verify (C := sum_crypto) m (sd_ked s) (Some true) = Ok true /\ said_verify (H0 := sum_crypto) (sd_saider s) (sd_ked s) None None None None None = Ok false.
Proof.
  intros P o. split; [|split].
  - split; [|split; [|vm_compute; discriminate]].
    + constructor; [repeat constructor; cbn; intuition discriminate|]. intros k v [E|[E|[E|[E|[E|[]]]]]]; injection E as <- <-; constructor. intros ? [].
    + constructor. intros k v [E|[E|[E|[E|[E|[]]]]]]; injection E as <- <-; split; try (vm_compute; reflexivity); constructor; try (vm_compute; reflexivity). intros ? [].
  - intros code n ser I. cbn [x_hash sum_crypto]. unfold sum_hash. rewrite len_rep. split.
    + cbn in I. repeat (destruct I as [I|I]; [injection I as <- <-; reflexivity|]). destruct I.
    + apply forallb_rep. unfold byte_ok. pose proof (N.mod_lt (fold_left N.add ser 0) 256). lia.
  - eexists _, _, _. split; [vm_compute; reflexivity|]. split; [vm_compute; reflexivity|]. split; [vm_compute; reflexivity|]. split; [vm_compute; reflexivity|]. split; vm_compute; reflexivity.
Qed.
