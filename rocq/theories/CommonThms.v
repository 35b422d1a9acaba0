(** Properties C48-C50: version strings, sizes, sniffing. *)
From Verif Require Import Base Utf8 StdStr Data Spec Common CommonDefs.
From Verif Require Import Prims BaseFacts StdStrFacts DataFacts JsonFacts CommonFacts CommonFacts2.

(** C48: deversify accepts exactly the version strings of a known protocol, JSON,
    and gives back their parts; it never panics. *)
Lemma C48_deversify_pf : forall (vs ident kind : bytes) (major minor size : N),
  deversify vs = Ok (VP ident kind (Ver major minor) size) <->
  (ident = s2b "KERI" \/ ident = s2b "ACDC") /\ kind = s2b "JSON" /\ major < 16 /\ minor < 16 /\ size < 2 ^ 24 /\ vs = version_text ident major minor kind size.
Proof.
  intros. split.
  - intros H. apply deversify_inv in H as [i [a [b [n [Hi [Ha [Hb [Hn [-> E]]]]]]]]]. injection E as -> -> -> -> ->. repeat split; auto. destruct Hi as [<-|[<-|[]]]; auto.
  - intros [Hi [-> [Ha [Hb [Hn ->]]]]]. apply deversify_text; auto. destruct Hi as [-> | ->]; cbn; auto.
Qed.
Lemma C48_deversify_total_pf : forall vs : bytes, deversify vs <> Panic.
Proof. exact deversify_total. Qed.
(** versify of parts that fit gives that version string, and deversify reads it back. *)
Lemma C48_versify_pf : forall (ident kind : bytes) (major minor size : N), ident = s2b "KERI" \/ ident = s2b "ACDC" -> kind = s2b "JSON" -> major < 16 -> minor < 16 -> size < 2 ^ 24 ->
  exists vs, versify (Some ident) (Some (Ver major minor)) (Some kind) (Some size) = Ok vs /\ vs = version_text ident major minor kind size /\
  deversify vs = Ok (VP ident kind (Ver major minor) size).
Proof.
  intros i k a b n Hi -> Ha Hb Hn. assert (I : In i idents) by (destruct Hi as [-> | ->]; cbn; auto). exists (version_text i a b (s2b "JSON") n).
  split; [apply versify_text; auto|]. split; [reflexivity|]. apply deversify_text; auto.
Qed.
(** Other protocols and kinds are refused by versify. *)
Lemma C48_versify_refuses_pf : forall (ident kind : bytes) (v : version) (size : N), ~ (ident = s2b "KERI" \/ ident = s2b "ACDC") \/ kind <> s2b "JSON" ->
  versify (Some ident) (Some v) (Some kind) (Some size) = Err E_Validation.
Proof.
  intros i k v n H. unfold versify. cbn [unwrap_or]. destruct (mem_code i idents) eqn:Mi; [|reflexivity]. destruct (mem_code k serials) eqn:Mk; [|reflexivity]. exfalso.
  apply mem_code_In in Mi, Mk. destruct Mi as [<-|[<-|[]]]; destruct Mk as [<-|[]]; destruct H as [H|H]; try (apply H; auto); apply H; reflexivity.
Qed.
Lemma C48_version_ex_pf : version_text (s2b "KERI") 1 0 (s2b "JSON") 251 = s2b "KERI10JSON0000fb_" /\
  deversify (s2b "ACDC1fJSONffffff_") = Ok (VP (s2b "ACDC") (s2b "JSON") (Ver 1 15) 16777215) /\ deversify (s2b "xKERI10JSON0000fb_") = Err E_ParseInt.
Proof. vm_compute. auto. Qed.
(** Outside those ranges versify succeeds but makes a string that deversify refuses. *)
Lemma C48_versify_overflow_refuted_pf : (exists vs e, versify None None None (Some (2 ^ 24)) = Ok vs /\ deversify vs = Err e) /\
  (exists vs e, versify None (Some (Ver 16 0)) None None = Ok vs /\ deversify vs = Err e).
Proof.
  split; [exists (s2b "KERI10JSON1000000_")|exists (s2b "KERI100JSON000000_")]; [exists E_Validation|exists E_Validation]; split; vm_compute; reflexivity.
Qed.

(** C49: if "v" is the first entry, or the entries before it take at most 7
    characters of JSON, then sizeify succeeds exactly for a version string of
    version 1.0 and (up to 2^32 bytes, see [C49_sizeify_short]) less than 2^24 bytes of
    JSON; the result's raw is the JSON of the result's object, which differs from
    the given one in the size stated by "v", and that is the length of raw (mod 2^32). *)
Lemma C49_sizeify_pf : forall (pre post : list (bytes * data)) (vs : bytes) (kind : option bytes) (r : sizeified),
  ~ In (s2b "v") (map fst pre) -> len (to_json (VObj pre)) <= 7 ->
  let obj (x : bytes) := VObj (pre ++ (s2b "v", VStr x) :: post) in
  let size := len (to_json (obj vs)) mod 2 ^ 32 in
  sizeify (obj vs) kind = Ok r <->
  exists ident m, (ident = s2b "KERI" \/ ident = s2b "ACDC") /\ m < 2 ^ 24 /\ vs = version_text ident 1 0 (s2b "JSON") m /\
    (kind = None \/ kind = Some (s2b "JSON")) /\ size < 2 ^ 24 /\
    sz_ked r = obj (version_text ident 1 0 (s2b "JSON") size) /\ sz_raw r = to_json (sz_ked r) /\
    sz_ident r = ident /\ sz_kind r = s2b "JSON" /\ sz_version r = Ver 1 0.
Proof.
  intros pre post vs kind r Nv L obj size. split.
  - intros H. pose proof H as H0. apply sizeify_inv in H as [o [i [m [k [E [Hi [Hm [G [Hk [F [Lk [Hn ->]]]]]]]]]]]]. unfold obj in E. injection E as <-. rewrite map_get_mid in G by auto. injection G as ->.
    assert (Q : sizeify (obj (version_text i 1 0 (s2b "JSON") m)) kind = if size <? 2 ^ 24 then Ok (SZ (to_json (obj (version_text i 1 0 (s2b "JSON") size))) i (s2b "JSON") (obj (version_text i 1 0 (s2b "JSON") size)) (Ver 1 0)) else Err E_Value) by exact (sizeify_eq pre post i m kind Nv L Hi Hm Hk).
    rewrite H0 in Q. change (size < 2 ^ 24) in Hn. replace (size <? 2 ^ 24) with true in Q by lia. apply Ok_inj in Q.
    exists i, m. split; [destruct Hi as [<-|[<-|[]]]; auto|]. split; [exact Hm|]. split; [reflexivity|]. split; [exact Hk|]. split; [exact Hn|]. rewrite Q. repeat split.
  - intros [i [m [Hi [Hm [-> [Hk [Hn [E1 [E2 [E3 [E4 E5]]]]]]]]]]]. assert (I : In i idents) by (destruct Hi as [-> | ->]; cbn; auto).
    transitivity (if size <? 2 ^ 24 then Ok (SZ (to_json (obj (version_text i 1 0 (s2b "JSON") size))) i (s2b "JSON") (obj (version_text i 1 0 (s2b "JSON") size)) (Ver 1 0)) else Err E_Value); [exact (sizeify_eq pre post i m kind Nv L I Hm Hk)|].
    replace (size <? 2 ^ 24) with true by lia. destruct r as [raw i' k' ked v']. cbn [sz_ked sz_raw sz_ident sz_kind sz_version] in *. subst. reflexivity.
Qed.
(** For JSON below 2^32 bytes: the stated size is the true length, and the length does not change. *)
Lemma C49_sizeify_short_pf : forall (pre post : list (bytes * data)) (vs : bytes) (kind : option bytes) (r : sizeified),
  ~ In (s2b "v") (map fst pre) -> len (to_json (VObj pre)) <= 7 -> let ked := VObj (pre ++ (s2b "v", VStr vs) :: post) in
  len (to_json ked) < 2 ^ 32 -> sizeify ked kind = Ok r ->
  sz_raw r = to_json (sz_ked r) /\ vget (sz_ked r) (s2b "v") = Ok (VStr (version_text (sz_ident r) 1 0 (s2b "JSON") (len (sz_raw r)))) /\
  len (sz_raw r) = len (to_json ked) /\ len (sz_raw r) < 2 ^ 24 /\ sizeify (sz_ked r) kind = Ok r.
Proof.
  intros pre post vs kind r Nv L ked L32 H. pose proof (proj1 (C49_sizeify_pf pre post vs kind r Nv L) H) as [i [m [Hi [Hm [-> [Hk [Hn [E1 [E2 [E3 [E4 E5]]]]]]]]]]].
  assert (I : In i idents) by (destruct Hi as [-> | ->]; cbn; auto). fold ked in E1, Hn. rewrite (N.mod_small _ _ L32) in *. split; [exact E2|].
  assert (PL : forall n, n < 2 ^ 24 -> to_json (VObj (pre ++ (s2b "v", VStr (version_text i 1 0 (s2b "JSON") n)) :: post)) = obj_head (s2b "v") pre ++ version_text i 1 0 (s2b "JSON") n ++ obj_tail post).
  { intros n Ln. apply obj_split. apply plain_version, vtext_like; auto; lia. }
  assert (Len : len (sz_raw r) = len (to_json ked)).
  { rewrite E2, E1. unfold ked. rewrite PL by exact Hn. rewrite PL by exact Hm. rewrite !len_app, !version_text_len by auto using known_tag, json_tag. reflexivity. }
  split; [|split; [exact Len|split; [rewrite Len; exact Hn|]]].
  - rewrite E1, E3, Len. cbn [vget]. rewrite map_get_mid by auto. reflexivity.
  - rewrite E1. apply C49_sizeify_pf; auto. exists i, (len (to_json ked)). rewrite <- E1, <- E2, Len. rewrite (N.mod_small _ _ L32). repeat split; auto.
Qed.
Lemma C49_sizeify_ex_pf : sizeify (VObj [(s2b "v", VStr (s2b "KERI10JSON000000_")); (s2b "d", VStr (s2b "abc"))]) None =
  Ok (SZ (s2b "{""v"":""KERI10JSON000023_"",""d"":""abc""}") (s2b "KERI") (s2b "JSON") (VObj [(s2b "v", VStr (s2b "KERI10JSON000023_")); (s2b "d", VStr (s2b "abc"))]) (Ver 1 0)).
Proof. vm_compute. reflexivity. Qed.
(** For every object: raw is the JSON of the given object with its first
    version-like text, which starts within 12 characters, replaced by a version
    string that states the length; "v" is set to that version string. *)
Lemma C49_sizeify_general_pf : forall (ked : data) (kind : option bytes) (r : sizeified), sizeify ked kind = Ok r ->
  let json := to_json ked in let size := len json mod 2 ^ 32 in
  exists k m, first_version_at json k /\ k <= 12 /\ size < 2 ^ 24 /\ m < 2 ^ 24 /\ let new := version_text (sz_ident r) 1 0 (s2b "JSON") size in
  vget ked (s2b "v") = Ok (VStr (version_text (sz_ident r) 1 0 (s2b "JSON") m)) /\
  sz_raw r = take k json ++ new ++ drop (k + 17) json /\ len (sz_raw r) = len json /\ vset ked (s2b "v") (VStr new) = Ok (sz_ked r).
Proof.
  intros ked kind r H. apply sizeify_inv in H as [o [i [m [k [-> [Hi [Hm [G [Hk [F [Lk [Hn ->]]]]]]]]]]]]. cbn [sz_ident sz_raw sz_ked]. cbv zeta. change (len (to_json (VObj o)) mod 2 ^ 32) with (as_u32 (len (to_json (VObj o)))).
  exists k, m. split; [apply rever_find_first; auto|]. split; [auto|]. split; [auto|]. split; [auto|]. split; [cbn [vget]; rewrite G; reflexivity|]. split; [reflexivity|]. split; [|reflexivity].
  pose proof (rever_find_spec (to_json (VObj o))) as Sp. rewrite F in Sp. destruct Sp as [L _]. rewrite !len_app, len_take, len_drop, version_text_len by auto using known_tag, json_tag. lia.
Qed.
(** The general form does not imply that raw is the JSON of the result: a key may have the form of a version string. *)
Lemma C49_sizeify_general_refuted_pf : exists ked r, sizeify ked None = Ok r /\ sz_raw r <> to_json (sz_ked r).
Proof. exists (VObj [(s2b "KERI10JSON000000_", VNull); (s2b "v", VStr (s2b "KERI10JSON000000_"))]),
    (SZ (s2b "{""KERI10JSON000032_"":null,""v"":""KERI10JSON000000_""}") (s2b "KERI") (s2b "JSON") (VObj [(s2b "KERI10JSON000000_", VNull); (s2b "v", VStr (s2b "KERI10JSON000032_"))]) (Ver 1 0)).
  split; [vm_compute; reflexivity|]. vm_compute. discriminate. Qed.
(** sizeify returns on every value. *)
Lemma C49_sizeify_total_pf : forall (ked : data) (kind : option bytes), sizeify ked kind <> Panic.
Proof. exact sizeify_total. Qed.

(** C50: sniff succeeds exactly on UTF-8 texts of at least 29 bytes whose first
    version-like text starts within 12 bytes and is of kind JSON, and returns its parts (whatever the protocol). *)
Lemma C50_sniff_pf : forall (raw ident kind : bytes) (major minor size : N),
  sniff raw = Ok (VP ident kind (Ver major minor) size) <->
  29 <= len raw /\ utf8_valid raw = true /\ tag ident /\ kind = s2b "JSON" /\ major < 16 /\ minor < 16 /\ size < 2 ^ 24 /\
  exists k r, k <= 12 /\ first_version_at raw k /\ raw = take k raw ++ version_text ident major minor kind size ++ r.
Proof.
  intros raw i kind a b n. split.
  - intros H. destruct (N.lt_ge_cases (len raw) 29) as [L|L]. { destruct (sniff_spec raw) as [e E]; [auto|]. congruence. }
    destruct (utf8_valid raw) eqn:U. 2:{ destruct (sniff_spec raw) as [e E]; [auto|]. congruence. }
    destruct (rever_find raw) as [k|] eqn:F. 2:{ destruct (sniff_spec raw) as [e E]; [auto|]. congruence. }
    destruct (N.lt_ge_cases 12 k) as [Lk|Lk]. { destruct (sniff_spec raw) as [e E]; [eauto 6|]. congruence. }
    pose proof (rever_find_spec raw) as Sp. rewrite F in Sp. destruct Sp as [Lk2 [R _]]. apply rever_at_iff in R as [w [r [[i' [a' [b' [k' [n' [Ti [Tk [Ha [Hb [Hn ->]]]]]]]]]] E]]].
    rewrite (sniff_at raw k i' a' b' k' n' r) in H by auto. destruct (bytes_eqb k' (s2b "JSON")) eqn:Ek; [|discriminate]. apply bytes_eqb_eq in Ek. apply Ok_inj in H. injection H as -> -> -> -> ->.
    split; [auto|]. split; [auto|]. split; [auto|]. split; [auto|]. split; [auto|]. split; [auto|]. split; [auto|]. exists k, r. split; [auto|]. split; [apply rever_find_first; auto|]. rewrite <- E. symmetry. apply take_drop_id.
  - intros [L [U [Ti [-> [Ha [Hb [Hn [k [r [Lk [F E]]]]]]]]]]]. apply rever_find_first in F. pose proof (rever_find_spec raw) as Sp. rewrite F in Sp. destruct Sp as [Lk2 _].
    rewrite (sniff_at raw k i a b (s2b "JSON") n r); auto using json_tag. rewrite E at 1. apply drop_app_exact. rewrite len_take. lia.
Qed.
(** sniff returns on every byte string. *)
Lemma C50_sniff_total_pf : forall raw : bytes, sniff raw <> Panic.
Proof.
  intros raw H. destruct (N.lt_ge_cases (len raw) 29) as [L|L]. { destruct (sniff_spec raw) as [e E]; [auto|]. congruence. }
  destruct (utf8_valid raw) eqn:U. 2:{ destruct (sniff_spec raw) as [e E]; [auto|]. congruence. }
  destruct (rever_find raw) as [k|] eqn:F. 2:{ destruct (sniff_spec raw) as [e E]; [auto|]. congruence. }
  destruct (N.lt_ge_cases 12 k) as [Lk|Lk]. { destruct (sniff_spec raw) as [e E]; [eauto 6|]. congruence. }
  pose proof (rever_find_spec raw) as Sp. rewrite F in Sp. destruct Sp as [Lk2 [R _]]. apply rever_at_iff in R as [w [r [[i' [a' [b' [k' [n' [Ti [Tk [Ha [Hb [Hn ->]]]]]]]]]] E]]].
  rewrite (sniff_at raw k i' a' b' k' n' r) in H by auto. destruct (bytes_eqb k' (s2b "JSON")); discriminate.
Qed.
Lemma C50_sniff_ex_pf : sniff (s2b "{""v"":""ABCD2aJSON000123_"",""t"":1}") = Ok (VP (s2b "ABCD") (s2b "JSON") (Ver 2 10) 291).
Proof. vm_compute. reflexivity. Qed.
