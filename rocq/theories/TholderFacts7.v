(** Thresholds: the weights of a constructed threshold. *)
From Coq Require Import QArith Lia.
From Verif Require Import Base Utf8 MatterTables Matter StdStr Data Json Prims Spec Tholder TholderDefs BaseFacts UtilFacts MatterDefs StdStrFacts SpecFacts PrimsDefs PrimsFacts PrimsFacts2 PrimsThms TholderFacts TholderFacts2 TholderFacts3 TholderFacts4 TholderFacts5 TholderFacts6.
Open Scope N_scope.

Section M.
Context `{P : Profile} `{F : Floats}.
Lemma lowest_proper r w : stands_for r w -> proper (lowest w) /\ stands_for r (lowest w).
Proof.
  intros S. destruct (lowest_stands r w S) as [E L]. split; [|exact L]. destruct L as ((Hd & Hn & G) & (_ & Sd) & H1 & H2 & _). split; [exact H1|]. split; [exact H2|]. rewrite E. cbn [fst snd]. split.
  - change (2 ^ 31) with 2147483648. change (2 ^ 31)%Z with 2147483648%Z in Sd. Lia.lia.
  - apply N2Z.inj. change (Z.of_N 1) with 1%Z. rewrite <- G. rewrite <- (Z2N.id (numer r)) at 2 by auto. rewrite <- (Z2N.id (denom r)) at 2 by Lia.lia. generalize (Z.to_N (numer r)) (Z.to_N (denom r)). intros [|p] [|q]; reflexivity.
Qed.
Lemma proper_lowest w : proper w -> lowest w = w.
Proof. intros (_ & _ & _ & G). unfold lowest. rewrite G. destruct w. cbn [fst snd]. rewrite !N.div_1_r. reflexivity. Qed.
Lemma proper_stands w : proper w -> exists r, weight_of_text (show w) = Ok r /\ stands_for r w.
Proof. intros (A & B & C & _). apply weight_text_some. apply show_text; auto. Qed.
Lemma show_inj w v : proper w -> proper v -> show w = show v -> w = v.
Proof.
  intros Pw Pv E. destruct (proper_stands w Pw) as (r & Er & Sr). destruct (proper_stands v Pv) as (s & Es & Ss). rewrite E, Es in Er. apply Ok_inj in Er. subst s.
  rewrite <- (proper_lowest w Pw), <- (proper_lowest v Pv). rewrite (proj1 (lowest_stands _ _ Sr)), (proj1 (lowest_stands _ _ Ss)). reflexivity.
Qed.
Lemma clause_texts_inj a b : clause_texts a = clause_texts b -> a = b.
Proof.
  unfold clause_texts. intros E. injection E as E. revert b E. induction a as [|x a IH]; intros [|y b] E; try discriminate; [reflexivity|]. cbn [map] in E. injection E as E1 E2. rewrite (IH b E2). f_equal.
  clear -E1. revert y E1. induction x as [|s x IH]; intros [|u y] E; try discriminate; [reflexivity|]. cbn [map] in E. injection E as -> E. rewrite (IH y E). reflexivity.
Qed.
Lemma clauses_value_inj a b : Forall (Forall proper) a -> Forall (Forall proper) b -> clauses_value a = clauses_value b -> a = b.
Proof.
  intros Pa Pb E. apply clause_texts_inj in E. revert b Pb E. induction Pa as [|x a Px Pa IH]; intros [|y b] Pb E; try discriminate; [reflexivity|]. inversion Pb as [|? ? Py Pb']; subst. cbn [map] in E. injection E as E1 E2. rewrite (IH b Pb' E2). f_equal.
  clear -P F E1 Px Py. revert y Py E1. induction Px as [|w x Pw Px IH]; intros [|v y] Py E; try discriminate; [reflexivity|]. inversion Py; subst. cbn [map] in E. injection E as E1 E2. rewrite (show_inj w v); auto. rewrite (IH y); auto.
Qed.
Lemma lowest_all rs cs : Forall2 (Forall2 stands_for) rs cs -> Forall (Forall proper) (map (map lowest) cs) /\ Forall2 (Forall2 stands_for) rs (map (map lowest) cs).
Proof.
  induction 1 as [|c ws rs cs H F' [IH1 IH2]]; cbn [map]; [split; constructor|].
  assert (X : Forall proper (map lowest ws) /\ Forall2 stands_for c (map lowest ws)). { clear -P F H. induction H as [|r w c ws H F0 [IH1 IH2]]; cbn [map]; [split; constructor|]. destruct (lowest_proper r w H). split; constructor; auto. }
  destruct X. split; constructor; auto.
Qed.
Lemma weighted_form t : made_tholder P F t -> th_weighted t = true -> exists v, process_weighted v = Ok t.
Proof. intros (a & b & c & H) W. apply new_formed in H as [[n (_ & m & _ & ->)]|H]; [discriminate W|exact H]. Qed.
Lemma numeric_form t : made_tholder P F t -> th_weighted t = false -> exists n, numeric n t.
Proof. intros (a & b & c & H) W. apply new_formed in H as [H|[v H]]; [exact H|]. apply process_weighted_inv in H as (rs & m & _ & _ & _ & E). rewrite E in W. discriminate W. Qed.
Record weigh (t : tholder) (rs : list (list ratio)) (cs : list (list weight)) : Prop := {
  we_thold : values_to_rationals (th_thold t) = Ok rs;
  we_stands : Forall2 (Forall2 stands_for) rs cs;
  we_proper : Forall (Forall proper) cs;
  we_value : th_thold t = clauses_value cs;
  we_size : count_weights 0 rs = Ok (th_size t);
  we_again : process_weighted (th_thold t) = Ok t;
  we_number : th_number t = None;
  we_bexter : exists b, th_bexter t = Some b;
  we_weighted : th_weighted t = true }.
Lemma process_weigh v t : process_weighted v = Ok t -> exists rs cs, values_to_rationals v = Ok rs /\ weigh t rs cs.
Proof.
  intros H. pose proof (process_weighted_again v t H) as Ag. destruct (process_weighted_inv v t H) as (rs & b & H1 & H2 & H3 & E). pose proof H1 as H1'. apply vtr_ok in H1 as (ts & _ & F1 & K). destruct (texts_weights ts rs F1) as (cs & F2 & S).
  destruct (lowest_all rs cs S) as [L1 L2]. exists rs, (map (map lowest) cs). split; [exact H1'|]. constructor; auto.
  - rewrite E. cbn [th_thold]. eapply vtr_again; eauto.
  - rewrite E. cbn [th_thold]. apply outer_show. exact S.
  - rewrite E. reflexivity.
  - rewrite E. cbn [th_bexter]. eauto.
  - rewrite E. reflexivity.
Qed.
Lemma made_weigh t : made_tholder P F t -> th_weighted t = true -> exists rs cs, weigh t rs cs.
Proof. intros H W. apply weighted_form in H as [v H]; auto. apply process_weigh in H as (rs & cs & _ & H). eauto. Qed.
Lemma weights_weigh t cs : made_tholder P F t -> weights t cs -> exists rs, weigh t rs cs.
Proof.
  intros H (W & E & Pc). destruct (made_weigh t H W) as (rs & cs' & X). exists rs. replace cs with cs'; [exact X|]. apply clauses_value_inj; [apply (we_proper _ _ _ X)|exact Pc|]. rewrite <- (we_value _ _ _ X). exact E.
Qed.
Lemma weigh_satisfy t rs cs idx : weigh t rs cs -> satisfy t idx = (sats <- marked (th_size t) idx ;; satisfy_clauses sats 0 rs).
Proof.
  intros W. unfold satisfy. rewrite (we_number _ _ _ W). destruct (we_bexter _ _ _ W) as [b ->]. unfold satisfy_weighted. fold (marked (th_size t) idx). destruct (marked (th_size t) idx) as [s| |]; try reflexivity. cbn [obind]. rewrite (we_thold _ _ _ W). reflexivity.
Qed.
Lemma weigh_size t rs cs : weigh t rs cs -> len (concat cs) < 2 ^ 32 -> th_size t = len (concat cs).
Proof.
  intros W L. pose proof (we_size _ _ _ W) as E. rewrite <- (concat_len _ _ _ (we_stands _ _ _ W)) in *. rewrite count_ok in E by (rewrite N.add_0_l; exact L). rewrite N.add_0_l in E. apply Ok_inj in E. auto.
Qed.
Lemma weigh_checks t rs cs : weigh t rs cs -> Forall (fun c => check_clause c = Ok tt) rs.
Proof. intros W. pose proof (we_thold _ _ _ W) as E. apply vtr_ok in E as (_ & _ & _ & K). exact K. Qed.
Lemma weigh_nonempty t rs cs : weigh t rs cs -> th_thold t <> VArr [] -> rs <> [].
Proof. intros W H ->. apply H. rewrite (we_value _ _ _ W). pose proof (we_stands _ _ _ W) as S. inversion S; subst. reflexivity. Qed.

(** signed texts *)
Lemma parse_int_iff radix lo hi s z : 2 <= radix <= 16 -> parse_int radix lo hi s = Some z <->
  exists d n, d <> [] /\ StdStr.digits_val radix d 0 = Some n /\ ((s = d \/ s = 43 :: d) /\ z = Z.of_N n \/ s = 45 :: d /\ z = (- Z.of_N n)%Z) /\ (lo <= z <= hi)%Z.
Proof.
  intros HR. assert (ND : forall c r n, c = 43 \/ c = 45 -> StdStr.digits_val radix (c :: r) 0 = Some n -> False).
  { intros c r n [-> | ->] H; cbn [StdStr.digits_val] in H; change (digit_val radix 43) with (@None N) in H; change (digit_val radix 45) with (@None N) in H; discriminate. }
  assert (R : forall z : Z, ((lo <=? z) && (z <=? hi))%Z = true <-> (lo <= z <= hi)%Z) by (intros y; rewrite andb_true_iff, Z.leb_le, Z.leb_le; Lia.lia).
  assert (G : forall r (neg : bool), (match r with [] => None | _ => match StdStr.digits_val radix r 0 with Some n => let z := if neg then (- Z.of_N n)%Z else Z.of_N n in if ((lo <=? z) && (z <=? hi))%Z then Some z else None | None => None end end = Some z <->
    exists n, r <> [] /\ StdStr.digits_val radix r 0 = Some n /\ z = (if neg then (- Z.of_N n)%Z else Z.of_N n) /\ (lo <= z <= hi)%Z)).
  { intros r neg. split.
    - destruct r as [|c r]; [discriminate|]. destruct (StdStr.digits_val radix (c :: r) 0) as [n|] eqn:E; [|discriminate]. cbv zeta. destruct (_ && _)%bool eqn:E2; [|discriminate]. intros X. apply Some_inj in X. subst z. exists n. split; [discriminate|].
      split; [reflexivity|]. split; [reflexivity|]. apply R. exact E2.
    - intros (n & Hne & D & -> & B). destruct r as [|c r]; [congruence|]. rewrite D. cbv zeta. apply R in B. rewrite B. reflexivity. }
  destruct s as [|c r].
  - split; [discriminate|]. intros (d & n & Hne & _ & [[[<-|X] _]|[X _]] & _); congruence.
  - destruct (N.eq_dec c 43) as [->|N43]; [|destruct (N.eq_dec c 45) as [->|N45]].
    + change (parse_int radix lo hi (43 :: r)) with (match r with [] => None | _ => match StdStr.digits_val radix r 0 with Some n => let z := if false then (- Z.of_N n)%Z else Z.of_N n in if ((lo <=? z) && (z <=? hi))%Z then Some z else None | None => None end end).
      rewrite (G r false). split.
      * intros (n & A & B & C & D). exists r, n. auto 8.
      * intros (d & n & A & B & [[[<-|X] C]|[X C]] & D); [|injection X as <-; exists n; auto|discriminate]. exfalso. exact (ND _ _ n (or_introl eq_refl) B) || exact (ND _ _ n (or_intror eq_refl) B).
    + change (parse_int radix lo hi (45 :: r)) with (match r with [] => None | _ => match StdStr.digits_val radix r 0 with Some n => let z := if true then (- Z.of_N n)%Z else Z.of_N n in if ((lo <=? z) && (z <=? hi))%Z then Some z else None | None => None end end).
      rewrite (G r true). split.
      * intros (n & A & B & C & D). exists r, n. auto 8.
      * intros (d & n & A & B & [[[<-|X] C]|[X C]] & D); [|discriminate|injection X as <-; exists n; auto]. exfalso. exact (ND _ _ n (or_introl eq_refl) B) || exact (ND _ _ n (or_intror eq_refl) B).
    + rewrite parse_int_digits by auto. pose proof (G (c :: r) false) as G'. cbv iota beta in G'. rewrite G'. split.
      * intros (n & A & B & C & D). exists (c :: r), n. auto 8.
      * intros (d & n & A & B & [[[<-|X] C]|[X C]] & D); [exists n; auto|congruence|congruence].
Qed.
Lemma parse_hex_i64_iff s z : parse_hex_i64 s = Ok z <-> hex_int_text s z.
Proof.
  unfold parse_hex_i64, hex_int_text. pose proof (parse_int_iff 16 (- 2 ^ 63) (2 ^ 63 - 1) s) as K.
  assert (K' : forall y, parse_int 16 (- 2 ^ 63) (2 ^ 63 - 1) s = Some y <-> hex_int_text s y).
  { intros y. rewrite K by lia. unfold hex_int_text. split; intros (d & n & A & B & C & D); exists d, n; rewrite hex_numeral_val in *; (split; [exact A|]; split; [exact B|]; split; [exact C|Lia.lia]). }
  unfold hex_int_text in K'. destruct (parse_int 16 (- 2 ^ 63) (2 ^ 63 - 1) s) as [y|].
  - split; [intros X; apply Ok_inj in X; subst y; apply K'; reflexivity|]. intros X. apply K' in X. congruence.
  - split; [discriminate|]. intros X. apply K' in X. discriminate.
Qed.
Lemma parse_hex_i64_cases s : (exists z, parse_hex_i64 s = Ok z) \/ parse_hex_i64 s = Err E_ParseInt.
Proof. unfold parse_hex_i64. destruct (parse_int _ _ _ s); eauto. Qed.
Lemma hex_int_not_bracket s z : hex_int_text s z -> starts_with (s2b "[") s = false.
Proof.
  intros (d & n & Hne & D & C & _). assert (X : forall c r, d = c :: r -> c <> 91). { intros c r -> ->. apply hex_numeral_val in D. cbn [StdStr.digits_val] in D. change (digit_val 16 91) with (@None N) in D. discriminate. }
  destruct d as [|c r]; [congruence|]. specialize (X c r eq_refl). change (s2b "[") with [91]. destruct C as [[[-> | ->] _]|[-> _]]; cbn [starts_with]; try reflexivity. destruct (N.eqb_spec 91 c); [congruence|reflexivity].
Qed.
Lemma final_process z : (t <- process_unweighted z ;; final t) = process_unweighted z.
Proof. destruct (process_unweighted z) as [t| |] eqn:E; try reflexivity. cbn [obind]. apply formed_final. apply process_unweighted_ok in E as [_ E]. left. eauto. Qed.
Lemma final_weighted v : (t <- process_weighted v ;; final t) = process_weighted v.
Proof. destruct (process_weighted v) as [t| |] eqn:E; try reflexivity. cbn [obind]. apply formed_final. right. eauto. Qed.
Lemma of_thold_eq v : tholder_of_thold v = process_thold v.
Proof. unfold tholder_of_thold. rewrite tholder_new_eq. unfold process_thold. destruct (to_i64 v); cbn [obind]; [rewrite <- (final_process a) at 2|rewrite <- (final_weighted v) at 2|rewrite <- (final_weighted v) at 2]; reflexivity. Qed.
Lemma of_sith_eq v : tholder_of_sith v = process_sith v.
Proof. unfold tholder_of_sith. rewrite tholder_new_eq. cbn [obind]. destruct (process_sith v) as [t| |] eqn:E; try reflexivity. cbn [obind]. apply formed_final. eapply process_sith_formed; eauto. Qed.
Lemma process_thold_texts ts : process_thold (clause_texts ts) = process_weighted (clause_texts ts).
Proof. reflexivity. Qed.
End M.
