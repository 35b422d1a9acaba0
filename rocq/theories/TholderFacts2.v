(** Weights: texts and numbers. *)
From Coq Require Import QArith Lia.
From Verif Require Import Base StdStr Data Json Spec Tholder TholderDefs BaseFacts UtilFacts StdStrFacts PrimsFacts TholderFacts.
Open Scope N_scope.

Lemma Some_inj {A} (a b : A) : Some a = Some b -> a = b.
Proof. congruence. Qed.
Lemma dec_digit c d : 48 <= c <= 57 /\ d = c - 48 <-> digit_val 10 c = Some d.
Proof.
  unfold digit_val. destruct (N.leb_spec 48 c); destruct (N.leb_spec c 57); destruct (N.leb_spec 97 c); destruct (N.leb_spec c 122); destruct (N.leb_spec 65 c); destruct (N.leb_spec c 90); cbn [andb]; cbv zeta;
   try (match goal with |- context [?v <? 10] => destruct (N.ltb_spec v 10) end); (split; [intros [HY ->]|intros HX]); try discriminate; try (apply Some_inj in HX; subst d); try Lia.lia; try reflexivity.
Qed.
Lemma dec_numeral_val s n : dec_numeral s n <-> StdStr.digits_val 10 s 0 = Some n.
Proof.
  unfold dec_numeral. split.
  - intros [ds [F ->]]. rewrite value_val_eq. apply digits_val_ok. eapply Forall2_imp; [|exact F]. intros a b. apply dec_digit.
  - intros H. apply digits_val_some in H as [ds [F ->]]. exists ds. rewrite value_val_eq. split; auto. eapply Forall2_imp; [|exact F]. intros a b. apply dec_digit.
Qed.
Lemma dec_numeral_chars s n c : dec_numeral s n -> In c s -> 48 <= c <= 57.
Proof. intros [ds [F _]] I. induction F as [|x d s ds [H _] F IH]; [contradiction|]. destruct I as [->|I]; auto. Qed.
Lemma dec_numeral_to_dec n : dec_numeral (to_dec n) n.
Proof. apply dec_numeral_val. apply digits_val_radix; lia. Qed.
Lemma dec_numeral_fun s n m : dec_numeral s n -> dec_numeral s m -> n = m.
Proof. rewrite !dec_numeral_val. congruence. Qed.

Lemma parse_i32_iff s z : parse_i32 s = Ok z <-> int_text s z.
Proof.
  unfold parse_i32, int_text. 
  assert (R : forall z : Z, ((- 2 ^ 31 <=? z) && (z <=? 2 ^ 31 - 1))%Z = true <-> (- 2 ^ 31 <= z < 2 ^ 31)%Z) by (intros y; rewrite andb_true_iff, Z.leb_le, Z.leb_le; Lia.lia).
  assert (G : forall r (neg : bool), (match r with [] => None | _ => match StdStr.digits_val 10 r 0 with Some n => let z := if neg then (- Z.of_N n)%Z else Z.of_N n in if ((- 2 ^ 31 <=? z) && (z <=? 2 ^ 31 - 1))%Z then Some z else None | None => None end end = Some z <->
    exists n, r <> [] /\ dec_numeral r n /\ z = (if neg then (- Z.of_N n)%Z else Z.of_N n) /\ (- 2 ^ 31 <= z < 2 ^ 31)%Z)).
  { intros r neg. split.
    - destruct r as [|c r]; [discriminate|]. destruct (StdStr.digits_val 10 (c :: r) 0) as [n|] eqn:E; [|discriminate]. cbv zeta. destruct (_ && _)%bool eqn:E2; [|discriminate]. intros X. apply Some_inj in X. subst z. exists n. split; [discriminate|].
      split; [apply dec_numeral_val; exact E|]. split; [reflexivity|]. apply R. exact E2.
    - intros (n & Hne & D & -> & B). apply dec_numeral_val in D. destruct r as [|c r]; [congruence|]. rewrite D. cbv zeta. apply R in B. rewrite B. reflexivity. }
  assert (K : parse_int 10 (- 2 ^ 31) (2 ^ 31 - 1) s = Some z <-> exists d n, d <> [] /\ dec_numeral d n /\ ((s = d \/ s = 43 :: d) /\ z = Z.of_N n \/ s = 45 :: d /\ z = (- Z.of_N n)%Z) /\ (- 2 ^ 31 <= z < 2 ^ 31)%Z).
  { destruct s as [|c r].
    - split; [discriminate|]. intros (d & n & Hne & _ & [[[<-|X] _]|[X _]] & _); congruence.
    - destruct (N.eq_dec c 43) as [->|N43]; [|destruct (N.eq_dec c 45) as [->|N45]].
      + change (parse_int 10 (- 2 ^ 31) (2 ^ 31 - 1) (43 :: r)) with (match r with [] => None | _ => match StdStr.digits_val 10 r 0 with Some n => let z := if false then (- Z.of_N n)%Z else Z.of_N n in if ((- 2 ^ 31 <=? z) && (z <=? 2 ^ 31 - 1))%Z then Some z else None | None => None end end).
        rewrite (G r false). split.
        * intros (n & A & B & C & D). exists r, n. auto 8.
        * intros (d & n & A & B & [[[<-|X] C]|[X C]] & D); [|injection X as <-; eauto|discriminate]. exfalso. apply (dec_numeral_chars _ _ 43) in B; [lia|left; auto].
      + change (parse_int 10 (- 2 ^ 31) (2 ^ 31 - 1) (45 :: r)) with (match r with [] => None | _ => match StdStr.digits_val 10 r 0 with Some n => let z := if true then (- Z.of_N n)%Z else Z.of_N n in if ((- 2 ^ 31 <=? z) && (z <=? 2 ^ 31 - 1))%Z then Some z else None | None => None end end).
        rewrite (G r true). split.
        * intros (n & A & B & C & D). exists r, n. auto 8.
        * intros (d & n & A & B & [[[<-|X] C]|[X C]] & D); [|discriminate|injection X as <-; eauto]. exfalso. apply (dec_numeral_chars _ _ 45) in B; [lia|left; auto].
      + rewrite parse_int_digits by auto. pose proof (G (c :: r) false) as G'. cbv iota beta in G'. rewrite G'. split.
        * intros (n & A & B & C & D). exists (c :: r), n. auto 8.
        * intros (d & n & A & B & [[[<-|X] C]|[X C]] & D); [eauto|congruence|congruence]. }
  destruct (parse_int 10 (- 2 ^ 31) (2 ^ 31 - 1) s) as [y|].
  - split; [intros X; apply Ok_inj in X; subst y; apply K; reflexivity|]. intros X. apply K in X. congruence.
  - split; [discriminate|]. intros X. apply K in X. discriminate.
Qed.
Lemma parse_i32_cases s : (exists z, parse_i32 s = Ok z) \/ parse_i32 s = Err E_ParseInt.
Proof. unfold parse_i32. destruct (parse_int _ _ _ s); eauto. Qed.
Lemma int_text_chars s z c : int_text s z -> In c s -> c = 43 \/ c = 45 \/ 48 <= c <= 57.
Proof. intros (d & n & _ & D & [[[<-| ->] _]|[-> _]] & _) I; try (destruct I as [<-|I]; auto); right; right; eapply dec_numeral_chars; eauto. Qed.
Lemma int_text_fun s z y : int_text s z -> int_text s y -> z = y.
Proof. rewrite <- !parse_i32_iff. congruence. Qed.
Lemma int_text_to_dec n : n < 2 ^ 31 -> int_text (to_dec n) (Z.of_N n).
Proof.
  intros H. exists (to_dec n), n. split; [apply to_radix_nonempty; lia|]. split; [apply dec_numeral_to_dec|]. split; [auto|]. clear -H. change (2 ^ 31) with 2147483648 in H. change (2 ^ 31)%Z with 2147483648%Z. Lia.lia.
Qed.
Lemma to_dec_chars n c : In c (to_dec n) -> 48 <= c <= 57.
Proof. apply dec_numeral_chars with (n := n). apply dec_numeral_to_dec. Qed.

(** ** split at the slash *)
Lemma occurrences_split c s : len (split_on c s) = 1 + occurrences c s.
Proof.
  unfold occurrences. induction s as [|x s IH]; [reflexivity|]. cbn [split_on filter]. rewrite N.eqb_sym. destruct (c =? x).
  - rewrite !len_cons, IH. reflexivity.
  - pose proof (split_on_nonempty c s). destruct (split_on c s); [congruence|]. rewrite len_cons in *. exact IH.
Qed.
Lemma split_two c t a b : split_on c t = [a; b] <-> t = a ++ c :: b /\ ~ In c a /\ ~ In c b.
Proof.
  split.
  - intros E. pose proof (split_on_parts c t) as F. rewrite E in F. inversion F as [|? ? Ha F']; subst. inversion F'; subst. split; [|auto]. rewrite <- (join_split c t), E. reflexivity.
  - intros (-> & Ha & Hb). rewrite split_on_app by auto. rewrite split_on_none by auto. reflexivity.
Qed.
Lemma split_head c t a ps : split_on c t = a :: ps -> (ps = [] /\ t = a) \/ exists r, t = a ++ c :: r.
Proof.
  intros E. pose proof (join_split c t) as J. rewrite E in J. destruct ps as [|p ps]; [left; split; auto|]. right. exists (join [c] (p :: ps)). rewrite <- J. reflexivity.
Qed.

(** ** weights *)
Section W.
Context `{P : Profile}.
Lemma new_stands n d : 0 < d -> n <= d -> d < 2 ^ 31 -> exists r, ratio_new (Z.of_N n) (Z.of_N d) = Ok r /\ stands_for r (n, d).
Proof.
  intros Hd Hn Hb. destruct (reduce_ok (Z.of_N n) (Z.of_N d)) as (r & E & L & X & B1 & B2); try lia. exists r. split; [exact E|]. split; [exact L|]. cbn [fst snd].
  split; [|auto]. change (2 ^ 31) with 2147483648 in Hb. split; change (2 ^ 31)%Z with 2147483648%Z; lia.
Qed.
Lemma stands_unique r s w : stands_for r w -> stands_for s w -> r = s.
Proof. intros (Lr & _ & Hd & _ & Er) (Ls & _ & _ & _ & Es). apply (over_unique r s (Z.of_N (fst w)) (Z.of_N (snd w))); auto; lia. Qed.

Lemma weight_of_text_some t r : weight_of_text t = Ok r -> exists w, weight_text t w /\ stands_for r w.
Proof.
  unfold weight_of_text. destruct (split_on 47 t) as [|a ps] eqn:E; [exfalso; eapply split_on_nonempty; eauto|]. 
  assert (Other : (forall b, ps <> [b]) -> (if bytes_eqb a (s2b "0") then Ok (Rat 0 1) else if bytes_eqb a (s2b "1") then Ok (Rat 1 1) else Err E_Value) = Ok r -> exists w, weight_text t w /\ stands_for r w).
  { intros Hps H. assert (O : occurrences 47 t <> 1). { pose proof (occurrences_split 47 t) as O. rewrite E, len_cons in O. destruct ps as [|b [|b' ps]]; [change (len (@nil bytes)) with 0 in O; lia|exfalso; eapply Hps; eauto|rewrite !len_cons in O; lia]. }
    assert (T : t = a \/ exists q, t = a ++ s2b "/" ++ q). { destruct (split_head _ _ _ _ E) as [[_ T]|T]; auto. }
    destruct (bytes_eqb a (s2b "0")) eqn:E0; [|destruct (bytes_eqb a (s2b "1")) eqn:E1; [|discriminate]]; apply Ok_inj in H; subst r.
    - apply bytes_eqb_eq in E0. subst a. exists (0, 1). split; [right; split; [exact O|]; exists 0; auto|]. repeat split; cbn; lia.
    - apply bytes_eqb_eq in E1. subst a. exists (1, 1). split; [right; split; [exact O|]; exists 1; auto|]. repeat split; cbn; lia. }
  destruct ps as [|b [|b' ps]]; [apply Other; discriminate| |apply Other; discriminate]. clear Other.
  apply split_two in E as (-> & Ha & Hb). intros H. destruct (parse_i32 a) as [n| |] eqn:En; try discriminate. destruct (parse_i32 b) as [d| |] eqn:Ed; try discriminate. cbn [obind] in H.
  destruct ((n <? 0) || (d <? 0))%Z eqn:E0; [discriminate|]. apply orb_false_iff in E0 as [N0 D0]. apply Z.ltb_ge in N0, D0. destruct (Z.ltb_spec d n); [discriminate|].
  destruct (Z.eq_dec d 0) as [->|Dn]; [discriminate|]. pose proof En as In. pose proof Ed as Id. apply parse_i32_iff in In, Id.
  assert (Bd : (d < 2 ^ 31)%Z) by (destruct Id as (? & ? & _ & _ & _ & Id); lia). replace n with (Z.of_N (Z.to_N n)) in H, In by lia. replace d with (Z.of_N (Z.to_N d)) in H, Id by lia.
  destruct (new_stands (Z.to_N n) (Z.to_N d)) as (r' & Er & S); [lia|lia|change (2 ^ 31) with 2147483648; change (2 ^ 31)%Z with 2147483648%Z in Bd; lia|]. rewrite Er in H. apply Ok_inj in H. subst r'.
  exists (Z.to_N n, Z.to_N d). split; [|exact S]. left. exists a, b. cbn [fst snd]. repeat split; auto; lia.
Qed.
Lemma int_text_no_slash s z : int_text s z -> ~ In 47 s.
Proof. intros H I. pose proof (int_text_chars _ _ _ H I). lia. Qed.
Lemma weight_text_some t w : weight_text t w -> exists r, weight_of_text t = Ok r /\ stands_for r w.
Proof.
  intros [(a & b & -> & Ia & Ib & Hle & Hd)|(O & n & Hn & -> & T)].
  - unfold weight_of_text. rewrite (proj2 (split_two 47 (a ++ s2b "/" ++ b) a b)) by (split; [reflexivity|split; eapply int_text_no_slash; eauto]).
    pose proof Ia as Ja. pose proof Ib as Jb. apply parse_i32_iff in Ja, Jb. rewrite Ja, Jb. cbn [obind].
    replace ((Z.of_N (fst w) <? 0) || (Z.of_N (snd w) <? 0))%Z with false by lia. replace (Z.of_N (snd w) <? Z.of_N (fst w))%Z with false by lia. destruct w as [n d]. cbn [fst snd] in *.
    apply new_stands; auto. destruct Ib as (? & ? & _ & _ & _ & Ib). change (2 ^ 31) with 2147483648. change (2 ^ 31)%Z with 2147483648%Z in Ib. lia.
  - assert (X : exists ps, split_on 47 t = to_dec n :: ps /\ forall b, ps <> [b]).
    { pose proof (occurrences_split 47 t) as L. assert (Nn : ~ In 47 (to_dec n)) by (intros I; apply to_dec_chars in I; lia). destruct T as [->|[q ->]].
      - exists []. rewrite split_on_none by auto. split; [reflexivity|discriminate].
      - change (to_dec n ++ s2b "/" ++ q) with (to_dec n ++ 47 :: q) in *. rewrite split_on_app in * by auto. eexists; split; [reflexivity|]. intros b Eb. rewrite Eb in L. rewrite !len_cons in L. change (len (@nil bytes)) with 0 in L. lia. }
    destruct X as (ps & E & Hps). unfold weight_of_text. rewrite E. 
    assert (Y : (if bytes_eqb (to_dec n) (s2b "0") then Ok (Rat 0 1) else if bytes_eqb (to_dec n) (s2b "1") then Ok (Rat 1 1) else Err E_Value) = Ok (Rat (Z.of_N n) 1)) by (destruct Hn as [-> | ->]; reflexivity).
    exists (Rat (Z.of_N n) 1). split.
    + destruct ps as [|b [|b' ps]]; [exact Y|exfalso; eapply Hps; eauto|exact Y].
    + destruct Hn as [-> | ->]; repeat split; cbn; lia.
Qed.
Lemma weight_of_text_panic t : weight_of_text t = Panic <-> zero_over_zero t.
Proof.
  unfold zero_over_zero. split.
  - unfold weight_of_text. destruct (split_on 47 t) as [|a ps] eqn:E; [exfalso; eapply split_on_nonempty; eauto|].
    assert (Other : (if bytes_eqb a (s2b "0") then Ok (Rat 0 1) else if bytes_eqb a (s2b "1") then Ok (Rat 1 1) else Err E_Value) <> Panic). { destruct (bytes_eqb a (s2b "0")); [discriminate|]. destruct (bytes_eqb a (s2b "1")); discriminate. }
    destruct ps as [|b [|b' ps]]; [intros H; exfalso; exact (Other H)| |intros H; exfalso; exact (Other H)].
    apply split_two in E as (-> & Ha & Hb). intros H. destruct (parse_i32_cases a) as [[n En]|En]; rewrite En in H; [|discriminate]. destruct (parse_i32_cases b) as [[d Ed]|Ed]; rewrite Ed in H; [|discriminate]. cbn [obind] in H.
    destruct ((n <? 0) || (d <? 0))%Z eqn:E0; [discriminate|]. apply orb_false_iff in E0 as [N0 D0]. apply Z.ltb_ge in N0, D0. destruct (Z.ltb_spec d n); [discriminate|].
    apply parse_i32_iff in En, Ed. destruct (Z.eq_dec d 0) as [->|Dn]; [exists a, b; assert (n = 0)%Z as -> by lia; auto|].
    exfalso. destruct (reduce_ok n d) as (r & Er & _); try lia. unfold ratio_new in H. congruence.
  - intros (a & b & -> & Ia & Ib). unfold weight_of_text. rewrite (proj2 (split_two 47 (a ++ s2b "/" ++ b) a b)) by (split; [reflexivity|split; eapply int_text_no_slash; eauto]).
    apply parse_i32_iff in Ia, Ib. rewrite Ia, Ib. reflexivity.
Qed.

(** lowest terms *)
Lemma lowest_stands r w : stands_for r w -> lowest w = (Z.to_N (numer r), Z.to_N (denom r)) /\ stands_for r (lowest w).
Proof.
  intros S. pose proof S as ((Hd & Hn & G) & [Sn Sd] & Hw & Hle & E). destruct w as [n d]. cbn [fst snd] in *. unfold lowest. cbn [fst snd]. set (g := N.gcd n d).
  assert (Hg : 0 < g). { destruct (N.eq_dec g 0) as [X|]; [apply N.gcd_eq_0 in X; lia|lia]. }
  destruct (N.gcd_divide_l n d) as [a Ha]. destruct (N.gcd_divide_r n d) as [b Hb]. fold g in Ha, Hb.
  assert (Dn : n / g = a) by (rewrite Ha; apply N.div_mul; lia). assert (Dd : d / g = b) by (rewrite Hb; apply N.div_mul; lia). rewrite Dn, Dd.
  assert (Gab : N.gcd a b = 1). { pose proof (N.gcd_div_gcd n d g ltac:(lia) eq_refl) as X. rewrite Dn, Dd in X. exact X. }
  assert (0 < b) by nia. assert (a <= b) by nia.
  assert (Q : r = Rat (Z.of_N a) (Z.of_N b)).
  { apply (over_unique r (Rat (Z.of_N a) (Z.of_N b)) (Z.of_N n) (Z.of_N d)); [repeat split; auto| |lia|exact E|unfold is_over; cbn [numer denom]; rewrite <- !N2Z.inj_mul; f_equal; transitivity (a * (b * g)); [f_equal; exact Hb|transitivity (a * g * b); [ring|f_equal; symmetry; exact Ha]]].
    split; [cbn; lia|]. split; [cbn; lia|]. cbn [numer denom]. change 1%Z with (Z.of_N 1). rewrite <- Gab. destruct a, b; reflexivity. }
  rewrite Q. cbn [numer denom]. rewrite !N2Z.id. split; [reflexivity|]. subst r. cbn [numer denom] in *. repeat split; auto; cbn [fst snd numer denom]; lia.
Qed.
Lemma show_weight_show r w : stands_for r w -> show_weight 47 r = show (lowest w).
Proof.
  intros S. destruct (lowest_stands r w S) as [-> _]. destruct S as ((Hd & Hn & _) & _). unfold show_weight, show. cbn [fst snd].
  assert (Sh : forall z, (0 <= z)%Z -> show_int z = to_dec (Z.to_N z)) by (intros z Hz; unfold show_int; replace (z <? 0)%Z with false by lia; reflexivity).
  rewrite !Sh by lia. destruct (Z.eqb_spec (denom r) 1) as [->|]; [reflexivity|]. replace (Z.to_N (denom r) =? 1) with false by lia. reflexivity.
Qed.
Lemma show_text w : 0 < snd w -> fst w <= snd w -> snd w < 2 ^ 31 -> weight_text (show w) w.
Proof.
  intros Hd Hn Hb. unfold show. destruct (N.eqb_spec (snd w) 1) as [E|E].
  - right. split; [|exists (fst w); split; [lia|]; split; [destruct w; cbn in *; congruence|auto]].
    unfold occurrences. replace (filter (N.eqb 47) (to_dec (fst w))) with (@nil N); [discriminate|]. symmetry. assert (F : forall l, (forall c, In c l -> 48 <= c <= 57) -> filter (N.eqb 47) l = []).
    { induction l as [|x l IH]; intros H; [reflexivity|]. cbn [filter]. destruct (N.eqb_spec 47 x) as [<-|]; [specialize (H 47 (or_introl eq_refl)); lia|]. apply IH. intros c Hc. apply H. right; auto. }
    apply F. apply to_dec_chars.
  - left. exists (to_dec (fst w)), (to_dec (snd w)). split; [reflexivity|]. split; [apply int_text_to_dec; lia|]. split; [apply int_text_to_dec; lia|]. lia.
Qed.
Lemma show_again r w : stands_for r w -> weight_of_text (show_weight 47 r) = Ok r.
Proof.
  intros S. rewrite (show_weight_show r w S). destruct (lowest_stands r w S) as [E L]. destruct L as (L1 & L2 & L3 & L4 & L5). 
  destruct (weight_text_some (show (lowest w)) (lowest w)) as (r' & Er & S').
  { apply show_text; auto. rewrite E. cbn [snd]. destruct L2 as [_ L2]. change (2 ^ 31) with 2147483648. change (2 ^ 31)%Z with 2147483648%Z in L2. lia. }
  rewrite Er. f_equal. eapply stands_unique; [exact S'|]. repeat split; auto; apply L1 || apply L2.
Qed.
End W.
