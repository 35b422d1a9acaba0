(** Property C77: event logs. *)
From Verif Require Import Base Utf8 MatterTables Matter StdStr Data Json Spec MatterDefs Crypto Prims PrimsDefs DataDefs Common CommonDefs Saider SaiderDefs Sadder SadderDefs Prefixer PrefixerDefs AccessDefs InceptDefs PrintDefs LogDefs.
From Verif Require Import BaseFacts B64Facts UtilFacts MatterFacts MatterFacts2 MatterFacts3 SpecFacts MatterFacts4 StdStrFacts MatterThms PrimsFacts PrimsFacts2 PrimsThms DataFacts JsonFacts ImportFacts CommonFacts CommonFacts2 CommonThms DataThms SaiderFacts SaiderFacts2 SaiderThms SadderFacts SadderFacts2 SadderThms PrefixerFacts PrefixerThms AccessThms FlowThms InceptThms PrintThms.

Lemma parsed_reparse (P : Profile) t m q : parse_text t = Ok m -> matter_qb64 m = Ok q -> parse_text q = Ok m /\ exists z, wf m z.
Proof.
  intros H Q. destruct (exfil_parsed _ _ H) as [z Hp]. destruct (C06_reencodes_iff_pf P t m H) as (k & Hk & _ & [R _] & _). specialize (R (ex_intro _ q Q)).
  assert (k = full_of z (m_size m)) as -> by (pose proof (full_size_parsed _ _ _ Hp) as Hf; congruence).
  assert (W : wf m z) by (eapply parsed_wf; [exact Hp|]; apply no_pad_text_b64; auto). split; [|eauto]. unfold matter_qb64 in Q. rewrite (infil_wf z) in Q by exact W. apply Ok_inj in Q. subst q.
  pose proof (exfil_text z m [] W eq_refl) as X. rewrite app_nil_r in X. exact X.
Qed.
Lemma parsed_diger (P : Profile) t m q : parse_text t = Ok m -> matter_qb64 m = Ok q -> In (m_code m) (map fst digest_sizes) -> is_diger m.
Proof.
  intros H Q I. destruct (parsed_reparse P t m q H Q) as [_ [z W]]. destruct (code_size _ I) as [n Hn].
  assert (If : exists f, In (m_code m, (n, f)) fixed_codes).
  { assert (T' : forallb (fun e => existsb (fun g => bytes_eqb (fst e) (fst g) && (snd e =? fst (snd g))) fixed_codes) digest_sizes = true) by (vm_compute; reflexivity).
    eapply forallb_forall in T'; [|exact Hn]. apply existsb_exists in T' as [[c' [n' f]] [I' T']]. cbn [fst snd] in T'. apply andb_true_iff in T' as [T1 T2].
    apply bytes_eqb_eq in T1. apply N.eqb_eq in T2. rewrite T1, T2. eauto. }
  destruct If as [f If]. destruct (fixed_code_sizage _ _ _ If) as [z' [Hz [V [_ Hr]]]]. pose proof (wf_sz _ _ W) as Hz'. rewrite Hz in Hz'. apply Ok_inj in Hz'. subst z'.
  pose proof (wf_len _ _ W) as Rl. unfold raw_len_ok in Rl. rewrite V in Rl. destruct Rl as [R1 R2].
  replace m with (Mat (m_code m) 0 (m_raw m)) by (destruct m as [c s r]; cbn in *; subst; reflexivity).
  apply (said_constructed _ _ n Hn); [lia|apply (wf_bytes _ _ W)].
Qed.

Section L.
Context `{P : Profile} `{C : Crypto} `{F : Floats}.
Lemma event_facts s : float_shape F -> from_bytes s -> exists o t, sd_ked s = VObj o /\ good float_text (VObj o) /\ NoDup (map fst o) /\ map_get (s2b "d") o = Some (VStr t) /\
  parse_text t = Ok (sd_saider s) /\ In (m_code (sd_saider s)) (map fst digest_sizes).
Proof.
  intros FC (code & raw & H). apply C50_load_pf in H. destruct H as (size & v & m & _ & _ & _ & J & (t & D & Pt & Ec & Ic) & ->). cbn [sd_ked sd_saider].
  destruct (C46_json_stable_pf F _ v FC J) as (G & _). destruct v as [| | | | | |o]; try discriminate D. exists o, t. inversion G as [| | | | | |? N M]; subst. split; [reflexivity|]. split; [exact G|]. split; [exact N|]. split; [|split; [exact Pt|rewrite Ec; exact Ic]].
  cbn [vget] in D. destruct (map_get (s2b "d") o) eqn:Ed; [|discriminate D]. apply Ok_inj in D. subst. reflexivity.
Qed.
Lemma verified_said s : verified s -> exists q, matter_qb64 (sd_saider s) = Ok q.
Proof.
  unfold verified, said_verify. cbn [unwrap_or]. intros H. destruct (said_derive _ _ _ _ _) as [[raw ds]| |]; try discriminate H. destruct (saider_new _ _ _ _ _ _ _ _ _); try discriminate H.
  destruct (matter_qb64 (sd_saider s)) as [q| |]; try discriminate H. eauto.
Qed.
Lemma event_diger s q : float_shape F -> from_bytes s -> matter_qb64 (sd_saider s) = Ok q -> is_diger (sd_saider s) /\ parse_text q = Ok (sd_saider s).
Proof. intros FC E Q. destruct (event_facts s FC E) as (o & t & _ & _ & _ & _ & Pt & I). split; [eapply parsed_diger; eauto|eapply parsed_reparse; eauto]. Qed.
Lemma put_back k x q o1 o2 : NoDup (map fst o1) -> NoDup (map fst o2) -> put k x o1 = put k x o2 -> map_get k o1 = Some q -> map_get k o2 = Some q -> o1 = o2.
Proof. intros N1 N2 E G1 G2. rewrite <- (put_same k q o1), <- (put_same k q o2) by auto. rewrite <- (put_put k x q o1), <- (put_put k x q o2) by auto. rewrite E. reflexivity. Qed.
Lemma good_put k t o : good float_text (VObj o) -> good float_text (VObj (put k (VStr t) o)).
Proof.
  intros G. inversion G as [| | | | | |? N M]; subst. constructor; [apply put_NoDup; exact N|]. intros k' x I. rewrite <- put_insert in I by exact N. apply map_insert_In in I as [E|I]; [injection E as -> ->; constructor|eauto].
Qed.
Lemma same_event a b : hash_contract C -> float_shape F -> from_bytes a -> from_bytes b -> verified a -> verified b -> sadder_said a = sadder_said b ->
  sd_saider a = sd_saider b /\ (sd_ked a = sd_ked b \/ collide a b).
Proof.
  intros HC FC Ea Eb Va Vb Es. destruct (verified_said a Va) as (qa & Qa). destruct (verified_said b Vb) as (qb & Qb). unfold sadder_said in Es. rewrite Qa, Qb in Es. apply Ok_inj in Es. subst qb.
  destruct (event_diger a qa FC Ea Qa) as [Da Pa]. destruct (event_diger b qa FC Eb Qb) as [Db Pb]. assert (Em : sd_saider a = sd_saider b) by congruence. split; [exact Em|].
  destruct (event_facts a FC Ea) as (o1 & t1 & K1 & G1 & N1 & _ & _ & _). destruct (event_facts b FC Eb) as (o2 & t2 & K2 & G2 & N2 & _ & _ & _).
  unfold verified in Va, Vb. rewrite K1 in Va. rewrite K2, <- Em in Vb. apply C52_verify_pf in Va; auto. apply C52_verify_pf in Vb; auto. cbn [unwrap_or] in Va, Vb.
  destruct Va as (_ & o1' & _ & R1 & E1 & X1). destruct Vb as (_ & o2' & _ & R2 & E2 & X2). rewrite (E1 ltac:(discriminate)) in R1. rewrite (E2 ltac:(discriminate)) in R2.
  destruct (X1 eq_refl) as (q1 & Q1 & I1). destruct (X2 eq_refl) as (q2 & Q2 & I2). rewrite Qa in Q1, Q2. apply Ok_inj in Q1, Q2. subst q1 q2. apply In_map_get in I1; [|exact N1]. apply In_map_get in I2; [|exact N2].
  assert (W : forall o, without [] o = o). { intros o. unfold without. cbn [existsb negb]. induction o as [|e o IH]; [reflexivity|]. cbn [filter]. f_equal. exact IH. } rewrite W in R1, R2.
  set (c := m_code (sd_saider a)) in *. destruct (bytes_eq_dec (to_json (VObj (put (s2b "d") (placeholder c) o1))) (to_json (VObj (put (s2b "d") (placeholder c) o2)))) as [E|E].
  - left. rewrite K1, K2. f_equal. apply C45_json_injective_pf in E; [|apply good_put; auto|apply good_put; auto]. injection E as E. eapply put_back; eauto.
  - right. exists (to_json (VObj (put (s2b "d") (placeholder c) o1))), (to_json (VObj (put (s2b "d") (placeholder c) o2))). split; [exists o1; auto|]. split; [exists o2; rewrite <- Em; auto|]. fold c. split; [exact E|congruence].
Qed.
Lemma blank_good c qa v r w : good float_text (VObj ((s2b "v", VStr v) :: r)) -> map_get (s2b "d") ((s2b "v", VStr v) :: r) = Some (VStr qa) -> In (s2b "i", VStr qa) ((s2b "v", VStr v) :: r) ->
     NoDup (map fst r) /\ map_get (s2b "d") r = Some (VStr qa) /\ map_get (s2b "i") r = Some (VStr qa) /\ good float_text (VObj ((s2b "v", VStr w) :: blank c r)).
Proof.
  intros G M J. inversion G as [| | | | | |? N Mm]; subst. cbn [map fst] in N. inversion N as [|? ? Nv Nr]; subst. split; [exact Nr|]. split; [exact M|]. destruct J as [J|J]; [discriminate J|]. split; [apply In_map_get; auto|].
    assert (Gr : good float_text (VObj r)) by (constructor; [exact Nr|intros k x I; apply (Mm k x); right; exact I]). pose proof (good_put (s2b "i") (rep 35 (if len c =? 1 then 44 else 88)) r Gr) as Gi. pose proof (good_put (s2b "d") (rep 35 (if len c =? 1 then 44 else 88)) _ Gi) as Gd.
    change (good float_text (VObj (blank c r))) in Gd. inversion Gd as [| | | | | |? Nb Mb]; subst. constructor.
    - cbn [map fst]. constructor; [|exact Nb]. intros I. apply Nv. unfold blank in I. rewrite put_keys in I; [|rewrite put_keys; auto|apply put_NoDup; auto].
      + rewrite put_keys in I; auto. apply in_map_iff. exists (s2b "i", VStr qa). auto.
      + apply map_get_In in M. destruct M as [M|M]; [discriminate M|]. apply in_map_iff. exists (s2b "d", VStr qa). auto.
      + apply in_map_iff. exists (s2b "i", VStr qa). auto.
    - intros k x [I|I]; [injection I as <- <-; constructor|eauto].
Qed.
Lemma same_inception a b : hash_contract C -> float_shape F -> from_bytes a -> from_bytes b -> self_addressed a -> self_addressed b -> sadder_said a = sadder_said b ->
  (exists v1 v2 r, sd_ked a = VObj ((s2b "v", VStr v1) :: r) /\ sd_ked b = VObj ((s2b "v", VStr v2) :: r)) \/ collide a b.
Proof.
  intros HC FC Ea Eb ((v1 & r1 & K1) & Va & qa & Qa & D1) ((v2 & r2 & K2) & Vb & qb & Qb & D2) Es. rewrite Qa, Qb in Es. apply Ok_inj in Es. subst qb. unfold sadder_said in Qa, Qb.
  destruct (event_diger a qa FC Ea Qa) as [Da Pa]. destruct (event_diger b qa FC Eb Qb) as [Db Pb]. assert (Em : sd_saider a = sd_saider b) by congruence.
  destruct (event_facts a FC Ea) as (o1 & t1 & K1' & G1 & N1 & M1 & _ & _). destruct (event_facts b FC Eb) as (o2 & t2 & K2' & G2 & N2 & M2 & _ & _).
  rewrite K1 in K1'. injection K1' as <-. rewrite K2 in K2'. injection K2' as <-. rewrite K1 in Va, D1. rewrite K2 in D2. rewrite K2, <- Em in Vb.
  apply C54_verify_digest_pf in Va; auto. apply C54_verify_digest_pf in Vb; auto. destruct Va as (_ & (x1 & T1 & R1) & I1). destruct Vb as (_ & (x2 & T2 & R2) & I2).
  destruct (I1 eq_refl) as (q1 & Q1 & J1). destruct (I2 eq_refl) as (q2 & Q2 & J2). rewrite Qa in Q1, Q2. apply Ok_inj in Q1, Q2. subst q1 q2. clear I1 I2.
  cbn [vget] in D1, D2. rewrite M1 in D1. rewrite M2 in D2. apply Ok_inj in D1, D2. injection D1 as ->. injection D2 as ->.
  set (c := m_code (sd_saider a)) in *. destruct (bytes_eq_dec x1 x2) as [E|E]; [|right; exists x1, x2; split; [exists ((s2b "v", VStr v1) :: r1); auto|]; split; [exists ((s2b "v", VStr v2) :: r2); rewrite <- Em; auto|]; split; [exact E|fold c; congruence]].
  left. exists v1, v2, r1. split; [exact K1|]. rewrite K2. f_equal. f_equal.
  destruct (event_text_first _ _ _ _ N1 T1) as (w1 & Z1). destruct (event_text_first _ _ _ _ N2 T2) as (w2 & Z2). rewrite E, Z2 in Z1. clear Z2 E T1 T2.
  destruct (blank_good c qa v1 r1 w1 G1 M1 J1) as (Nr1 & Md1 & Mi1 & Gb1). destruct (blank_good c qa v2 r2 w2 G2 M2 J2) as (Nr2 & Md2 & Mi2 & Gb2).
  apply C45_json_injective_pf in Z1; [|exact Gb2|exact Gb1]. injection Z1 as _ Z. unfold blank in Z.
  assert (Zi : put (s2b "i") (placeholder c) r2 = put (s2b "i") (placeholder c) r1).
  { eapply (put_back (s2b "d") _ (VStr qa)); [apply put_NoDup; auto|apply put_NoDup; auto|exact Z| |]; rewrite put_get by auto; exact Md2 || exact Md1. }
  symmetry. apply (put_back (s2b "i") (placeholder c) (VStr qa)); auto.
Qed.
(** an identifier that is a prefix for one event and not for the other *)
Lemma mixed_event a b : hash_contract C -> float_shape F -> from_bytes a -> from_bytes b -> self_addressed a -> verified b -> serder_sn a <> serder_sn b -> sadder_said a = sadder_said b ->
  collide a b /\ collide b a.
Proof.
  intros HC FC Ea Eb ((v1 & r1 & K1) & Va & qa & Qa & D1) Vb Sn Es. destruct (verified_said b Vb) as (qb & Qb). rewrite Qa in Es. unfold sadder_said in Es, Qa. rewrite Qb in Es. apply Ok_inj in Es. subst qb.
  destruct (event_diger a qa FC Ea Qa) as [Da Pa]. destruct (event_diger b qa FC Eb Qb) as [Db Pb]. assert (Em : sd_saider a = sd_saider b) by congruence.
  destruct (event_facts a FC Ea) as (o1 & t1 & K1' & G1 & N1 & M1 & _ & _). destruct (event_facts b FC Eb) as (o2 & t2 & K2 & G2 & N2 & M2 & _ & _).
  rewrite K1 in K1'. injection K1' as <-. rewrite K1 in Va, D1. unfold verified in Vb. rewrite K2, <- Em in Vb.
  apply C54_verify_digest_pf in Va; auto. apply C52_verify_pf in Vb; auto. destruct Va as (_ & (x1 & T1 & R1) & I1). destruct Vb as (_ & o2' & _ & R2 & E2 & _). rewrite (E2 ltac:(discriminate)) in R2. cbn [unwrap_or] in R2.
  destruct (I1 eq_refl) as (q1 & Q1 & J1). rewrite Qa in Q1. apply Ok_inj in Q1. subst q1. clear I1. cbn [vget] in D1. rewrite M1 in D1. apply Ok_inj in D1. injection D1 as ->.
  assert (W : forall o, without [] o = o). { intros o. unfold without. cbn [existsb negb]. induction o as [|e o IH]; [reflexivity|]. cbn [filter]. f_equal. exact IH. } rewrite W in R2. set (c := m_code (sd_saider a)) in *.
  assert (Ne : x1 <> to_json (VObj (put (s2b "d") (placeholder c) o2))).
  { intros E. destruct (event_text_first _ _ _ _ N1 T1) as (w1 & Z1). rewrite E in Z1. destruct (blank_good c qa v1 r1 w1 G1 M1 J1) as (Nr1 & Md1 & Mi1 & Gb1). apply C45_json_injective_pf in Z1; [|apply good_put; auto|exact Gb1]. injection Z1 as Z.
    apply Sn. unfold serder_sn, serder_sner. rewrite K1, K2. cbn [vget]. apply (f_equal (map_get (s2b "s"))) in Z. rewrite put_get in Z by auto. change (bytes_eqb (s2b "s") (s2b "d")) with false in Z. cbv iota in Z. rewrite Z.
    assert (map_get (s2b "s") ((s2b "v", VStr w1) :: blank c r1) = map_get (s2b "s") r1) as ->; [|reflexivity].
    change (map_get (s2b "s") ((s2b "v", VStr w1) :: blank c r1)) with (map_get (s2b "s") (blank c r1)). unfold blank. rewrite !put_get by (try apply put_NoDup; auto). reflexivity. }
  assert (Da1 : digested a x1) by (exists ((s2b "v", VStr v1) :: r1); auto). assert (Db1 : digested b (to_json (VObj (put (s2b "d") (placeholder c) o2)))) by (exists o2; rewrite <- Em; auto).
  split; eexists _, _; (split; [eassumption|split; [eassumption|split; [congruence|]]]); try rewrite <- Em; fold c; congruence.
Qed.
End L.

Section L2.
Context `{P : Profile} `{C : Crypto} `{F : Floats}.
(** the numbers count the events, and all have the prefix of the oldest *)
Lemma log_position (first : sadder -> Prop) l : event_log first l -> forall k e, nth_error l k = Some e -> from_bytes e /\ serder_sn e = Ok (len l - 1 - N.of_nat k) /\ (exists i, (len l = 1 \/ serder_pre e = Ok i)) /\ forall e', In e' l -> serder_pre e' = serder_pre e.
Proof.
  induction 1 as [a Ea Fa Sa|a b l Hl IH Eb Vb Fb]; intros k e K.
  - destruct k as [|k]; [|destruct k; discriminate K]. injection K as <-. split; [exact Ea|]. split; [exact Sa|]. split; [exists []; left; reflexivity|]. intros e' [<-|[]]. reflexivity.
  - destruct Fb as (q & n & i & Sd & Pv & Na & Nb & Ia & Ib). destruct (IH O a eq_refl) as (Ea & Sa & _ & Pa). rewrite Na in Sa. apply Ok_inj in Sa. change (N.of_nat 0) with 0 in Sa. rewrite !len_cons in *.
    assert (Pe : forall e', In e' (b :: a :: l) -> serder_pre e' = Ok i) by (intros e' [<-|I]; [exact Ib|rewrite (Pa e' I); exact Ia]).
    assert (Ie : In e (b :: a :: l)) by (eapply nth_error_In; eauto). split; [|split; [|split; [exists i; right; apply Pe; exact Ie|intros e' I; rewrite (Pe e' I), (Pe e Ie); reflexivity]]].
    + destruct k as [|k]; [injection K as <-; exact Eb|]. apply (IH k e K).
    + destruct k as [|k]; [injection K as <-; rewrite Nb; f_equal; clear - Sa; Lia.lia|]. destruct (IH k e K) as (_ & Se & _). rewrite Se. f_equal. clear. rewrite Nnat.Nat2N.inj_succ. Lia.lia.
Qed.
Lemma ked_p a b q : sd_ked a = sd_ked b -> vget (sd_ked a) (s2b "p") = Ok (VStr q) -> vget (sd_ked b) (s2b "p") = Ok (VStr q).
Proof. intros ->. auto. Qed.
Lemma log_cons (first : sadder -> Prop) a l : event_log first (a :: l) -> from_bytes a /\ (l = [] /\ first a /\ serder_sn a = Ok 0 \/ exists b l', l = b :: l' /\ event_log first l /\ verified a /\ follows b a).
Proof. intros H. inversion H; subst; [auto|]. split; [auto|]. right. eexists _, _. eauto. Qed.
(** walking back two logs whose newest events have the same identifier *)
Lemma walk_back (first : sadder -> Prop) (R : sadder -> sadder -> Prop) : hash_contract C -> float_shape F ->
  (forall a b, from_bytes a -> from_bytes b -> first a -> first b -> sadder_said a = sadder_said b -> R a b \/ collide a b) ->
  (forall a b, from_bytes a -> from_bytes b -> first a -> verified b -> serder_sn a <> serder_sn b -> sadder_said a = sadder_said b -> collide a b /\ collide b a) ->
  forall l1 l2 a b, event_log first (a :: l1) -> event_log first (b :: l2) -> sadder_said a = sadder_said b ->
  (exists m1 m2 a' b', a :: l1 = m1 ++ [a'] /\ b :: l2 = m2 ++ [b'] /\ map sd_ked m1 = map sd_ked m2 /\ R a' b') \/ collision (a :: l1) (b :: l2).
Proof.
  intros HC FC HR HM. induction l1 as [|a' l1' IH]; intros l2 a b H1 H2 Es;
    destruct (log_cons _ _ _ H1) as (Ea & [(Z1 & Fa & Sa)|(a'' & l1'' & Z1 & H1' & Va & Fo1)]); try discriminate Z1; destruct (log_cons _ _ _ H2) as (Eb & [(-> & Fb & Sb)|(b' & l2' & -> & H2' & Vb & Fo2)]).
  - destruct (HR a b Ea Eb Fa Fb Es) as [X|X]; [left; exists [], [], a, b; auto|right; exists O, a, b; auto].
  - right. exists O, a, b. split; [reflexivity|]. split; [reflexivity|]. apply (HM a b); auto. destruct Fo2 as (q & n & i & _ & _ & _ & Nb & _). rewrite Sa, Nb. intros Z. apply Ok_inj in Z. clear - Z. Lia.lia.
  - right. exists O, a, b. split; [reflexivity|]. split; [reflexivity|]. apply (HM b a); auto. destruct Fo1 as (q & n & i & _ & _ & _ & Nb & _). rewrite Sb, Nb. intros Z. apply Ok_inj in Z. clear - Z. Lia.lia.
  - injection Z1 as <- <-. destruct (same_event a b HC FC Ea Eb Va Vb Es) as [Em [Ek|Ek]]; [|right; exists O, a, b; auto].
    destruct Fo1 as (q1 & n1 & i1 & S1 & P1 & _). destruct Fo2 as (q2 & n2 & i2 & S2 & P2 & _). rewrite Ek, P2 in P1. apply Ok_inj in P1. injection P1 as ->.
    destruct (IH l2' a' b' H1' H2' ltac:(congruence)) as [(m1 & m2 & x & y & E1 & E2 & K1 & X)|(i & e1 & e2 & X1 & X2 & X3)].
    + left. exists (a :: m1), (b :: m2), x, y. cbn [app map]. rewrite E1, E2, K1, Ek. auto.
    + right. exists (S i), e1, e2. auto.
Qed.
End L2.

(** C77: two logs whose newest events have the same identifier have the same events,
    unless two of their events, at the same place, are a collision of the digest function. *)
Lemma C77_history_pf : forall (P : Profile) (C : Crypto) (F : Floats) (a b : sadder) (l1 l2 : list sadder), hash_contract C -> float_shape F ->
  event_log verified (a :: l1) -> event_log verified (b :: l2) -> sadder_said a = sadder_said b ->
  map sd_ked (a :: l1) = map sd_ked (b :: l2) \/ collision (a :: l1) (b :: l2).
Proof.
  intros P C F a b l1 l2 HC FC H1 H2 Es. destruct (walk_back verified (fun a b => sd_ked a = sd_ked b) HC FC) with (l1 := l1) (l2 := l2) (a := a) (b := b) as [(m1 & m2 & x & y & E1 & E2 & K & X)|X]; auto.
  - intros x y Ex Ey Vx Vy Es'. apply (same_event x y HC FC Ex Ey Vx Vy Es').
  - intros x y Ex Ey Vx Vy Sn Es'. assert (Z : sd_ked x <> sd_ked y) by (intros Z; apply Sn; unfold serder_sn, serder_sner; rewrite Z; reflexivity).
    split; [destruct (same_event x y HC FC Ex Ey Vx Vy Es') as [_ [Y|Y]]; [contradiction|exact Y]|destruct (same_event y x HC FC Ey Ex Vy Vx ltac:(auto)) as [_ [Y|Y]]; [destruct Z; auto|exact Y]].
  - left. rewrite E1, E2, !map_app, K. cbn [map]. rewrite X. reflexivity.
Qed.

(** C77: the same for logs whose prefix is the identifier of their first event; only the
    version string of that event may differ. *)
Lemma C77_history_self_addressing_pf : forall (P : Profile) (C : Crypto) (F : Floats) (a b : sadder) (l1 l2 : list sadder), hash_contract C -> float_shape F ->
  event_log self_addressed (a :: l1) -> event_log self_addressed (b :: l2) -> sadder_said a = sadder_said b ->
  (exists ks v1 v2 r, map sd_ked (a :: l1) = ks ++ [VObj ((s2b "v", VStr v1) :: r)] /\ map sd_ked (b :: l2) = ks ++ [VObj ((s2b "v", VStr v2) :: r)]) \/
  collision (a :: l1) (b :: l2).
Proof.
  intros P C F a b l1 l2 HC FC H1 H2 Es.
  destruct (walk_back self_addressed (fun a b => exists v1 v2 r, sd_ked a = VObj ((s2b "v", VStr v1) :: r) /\ sd_ked b = VObj ((s2b "v", VStr v2) :: r)) HC FC) with (l1 := l1) (l2 := l2) (a := a) (b := b) as [(m1 & m2 & x & y & E1 & E2 & K & v1 & v2 & r & X1 & X2)|X]; auto.
  - intros x y Ex Ey Vx Vy Es'. apply (same_inception x y HC FC Ex Ey Vx Vy Es').
  - intros x y. apply mixed_event; auto.
  - left. exists (map sd_ked m1), v1, v2, r. rewrite E1, E2, !map_app, K. cbn [map]. rewrite X1, X2. auto.
Qed.
(** C77: the prefix of such logs determines their first event, in the same sense. *)
Lemma C77_prefix_pf : forall (P : Profile) (C : Crypto) (F : Floats) (l1 l2 : list sadder) (a b e1 e2 : sadder), hash_contract C -> float_shape F ->
  event_log self_addressed (l1 ++ [a]) -> event_log self_addressed (l2 ++ [b]) -> In e1 (l1 ++ [a]) -> In e2 (l2 ++ [b]) -> serder_pre e1 = serder_pre e2 ->
  (exists v1 v2 r, sd_ked a = VObj ((s2b "v", VStr v1) :: r) /\ sd_ked b = VObj ((s2b "v", VStr v2) :: r)) \/ collide a b.
Proof.
  intros P C F l1 l2 a b e1 e2 HC FC H1 H2 I1 I2 Ep.
  assert (X : forall l a e, event_log self_addressed (l ++ [a]) -> In e (l ++ [a]) -> from_bytes a /\ self_addressed a /\ serder_pre e = sadder_said a).
  { intros l x e H I. assert (Ix : In x (l ++ [x])) by (apply in_app_iff; right; left; auto). assert (Sx : self_addressed x /\ from_bytes x).
    { clear I Ix. remember (l ++ [x]) as m eqn:Em. revert l Em. induction H as [y Ey Fy Sy|y z m Hm IH Ey Vy Fo]; intros l Em.
      - destruct l as [|? [|? ?]]; [injection Em as <-; auto|discriminate Em|discriminate Em].
      - destruct l as [|? l]; [discriminate Em|]. injection Em as _ Em. apply (IH l Em). }
    destruct Sx as [Sx Ex]. split; [exact Ex|]. split; [exact Sx|]. apply In_nth_error in Ix as [k K]. destruct (log_position _ _ H k x K) as (_ & _ & _ & Pe). rewrite (Pe e I).
    destruct Sx as ((v & r & Kx) & Vx & q & Qx & Dx). rewrite Qx. destruct (event_facts x FC Ex) as (o & t & Ko & _ & N & _ & _ & Ic). unfold sadder_said in Qx. destruct (event_diger x q FC Ex Qx) as [D _]. rewrite Ko in Vx. apply C54_verify_digest_pf in Vx; auto.
    destruct Vx as (_ & _ & J). destruct (J eq_refl) as (q' & Q' & J'). rewrite Qx in Q'. apply Ok_inj in Q'. subst q'. unfold serder_pre. rewrite Ko. cbn [vget]. apply In_map_get in J'; [|exact N]. rewrite J'. reflexivity. }
  destruct (X _ _ _ H1 I1) as (Ea & Sa & Pa). destruct (X _ _ _ H2 I2) as (Eb & Sb & Pb). apply same_inception; auto. congruence.
Qed.
(** C77: in a log the events are numbered from 0, oldest first, and have one prefix. *)
Lemma C77_numbered_pf : forall (P : Profile) (C : Crypto) (F : Floats) (first : sadder -> Prop) (l : list sadder), event_log first l ->
  (forall k e, nth_error (rev l) k = Some e -> serder_sn e = Ok (N.of_nat k)) /\ forall e e', In e l -> In e' l -> serder_pre e = serder_pre e'.
Proof.
  intros P C F first l H. split.
  - intros k e K. assert (Lk : (k < length l)%nat) by (rewrite <- rev_length; apply nth_error_Some; congruence). assert (K' : nth_error l (length l - 1 - k) = Some e).
    { rewrite (nth_error_nth' (rev l) e) in K by (rewrite rev_length; exact Lk). injection K as K. rewrite rev_nth in K by exact Lk. rewrite <- K. replace (length l - 1 - k)%nat with (length l - S k)%nat by Lia.lia. apply nth_error_nth'. Lia.lia. }
    destruct (log_position _ _ H _ e K') as (_ & Sn & _). rewrite Sn. f_equal. unfold len. clear - Lk. Lia.lia.
  - intros e e' I I'. apply In_nth_error in I' as [k K]. destruct (log_position _ _ H k e' K) as (_ & _ & _ & Pe). apply Pe. exact I.
Qed.
(** C77: a log, written out oldest event first and followed by any text, is read back. *)
Lemma C77_transport_pf : forall (P : Profile) (C : Crypto) (F : Floats) (first : sadder -> Prop) (l : list sadder) (tail : bytes), event_log first l -> utf8_valid tail = true ->
  read_events (concat (map sd_raw (rev l)) ++ tail) (rev l) tail.
Proof.
  intros P C F first l tail H Ut. assert (E : forall e, In e (rev l) -> from_bytes e). { intros e I. apply in_rev in I. apply In_nth_error in I as [k K]. apply (log_position _ _ H k e K). }
  generalize dependent (rev l). clear l H. induction l as [|e l IH]; intros E; [constructor|]. cbn [map concat]. rewrite <- app_assoc. destruct (E e (or_introl eq_refl)) as (code & raw & L). pose proof L as L0. apply C50_load_pf in L0. destruct L0 as (size & v & m & _ & Ls & U & _ & _ & Ee).
  assert (Uc : utf8_valid (concat (map sd_raw l) ++ tail) = true).
  { clear - E Ut. assert (E' : forall x, In x l -> from_bytes x) by (intros; apply E; right; auto). clear E. induction l as [|x l IH]; [exact Ut|]. cbn [map concat]. rewrite <- app_assoc. destruct (E' x (or_introl eq_refl)) as (c & r & L). apply C50_load_pf in L. destruct L as (n & v & m & _ & _ & U & _ & _ & ->). cbn [sd_raw]. rewrite utf8_app by exact U. apply IH. intros; apply E'; right; auto. }
  econstructor; [exists code; apply (proj1 (C55_load_again_pf P C F code raw _ e Uc) L)|]. assert (sd_size e = len (sd_raw e)) as -> by (rewrite Ee; cbn [sd_size sd_raw]; rewrite len_take; lia). rewrite drop_app_exact by reflexivity. apply IH. intros; apply E; right; auto.
Qed.

(** C77: the next keys announced in an event are determined: two lists of keys that
    verify against the same digests are the same, unless two of them collide. *)
Lemma C77_rotation_pf : forall (P : Profile) (C : Crypto) (F : Floats) (a b1 b2 : sadder) (ds k1 k2 : list matter), float_shape F -> from_bytes a -> from_bytes b1 -> from_bytes b2 ->
  serder_digers a = Ok ds -> serder_verfers b1 = Ok k1 -> serder_verfers b2 = Ok k2 -> announced ds k1 -> announced ds k2 ->
  k1 = k2 \/ exists i d x y t1 t2, nth_error ds i = Some d /\ nth_error k1 i = Some x /\ nth_error k2 i = Some y /\ matter_qb64b x = Ok t1 /\ matter_qb64b y = Ok t2 /\
    t1 <> t2 /\ x_hash (m_code d) t1 = x_hash (m_code d) t2.
Proof.
  intros P C F a b1 b2 ds k1 k2 FC Ea E1 E2 Hd Hk1 Hk2. destruct (event_facts a FC Ea) as (oa & ta & Ka & _ & Na & _). destruct (event_facts b1 FC E1) as (o1 & t1' & K1 & _ & N1 & _). destruct (event_facts b2 FC E2) as (o2 & t2' & K2 & _ & N2 & _).
  assert (Ha : holds a oa) by (split; auto). assert (H1 : holds b1 o1) by (split; auto). assert (H2 : holds b2 o2) by (split; auto).
  assert (Dd : forall d, In d ds -> In (m_code d) (map fst digest_sizes)).
  { intros d I. apply (proj1 (proj2 (proj2 (C62_keys_pf P C F a oa Ha)))) in Hd. destruct Hd as [(l & _ & Fl)|[_ ->]]; [|destruct I]. clear - Fl I. induction Fl as [|v m l ms (t & _ & _ & J) Fl IH]; [destruct I|]. destruct I as [<-|I]; auto. }
  assert (Vk : forall s o ks, holds s o -> serder_verfers s = Ok ks -> forall k, In k ks -> exists t, parse_text t = Ok k).
  { intros s o ks H K k I. apply (proj1 (C62_keys_pf P C F s o H)) in K. destruct K as [(l & _ & Fl)|[_ ->]]; [|destruct I]. clear - Fl I. induction Fl as [|v m l ms (t & _ & J & _) Fl IH]; [destruct I|]. destruct I as [<-|I]; eauto. }
  pose proof (Vk _ _ _ H1 Hk1) as V1. pose proof (Vk _ _ _ H2 Hk2) as V2. clear Vk Hd Hk1 Hk2. intros A1. revert k2 V2. induction A1 as [|d x ds k1 (t1 & T1 & D1) A1 IH]; intros k2 V2 A2; inversion A2 as [|d' y ds' k2' (t2 & T2 & D2) A2']; subst; [auto|].
  destruct (IH ltac:(intros; apply Dd; right; auto) ltac:(intros; apply V1; right; auto) k2' ltac:(intros; apply V2; right; auto) A2') as [->|(i & d' & x' & y' & u1 & u2 & X)]; [|right; exists (S i), d', x', y', u1, u2; exact X].
  destruct (bytes_eq_dec t1 t2) as [E|E].
  - left. f_equal. subst t2. destruct (V1 x (or_introl eq_refl)) as (w1 & W1). destruct (V2 y (or_introl eq_refl)) as (w2 & W2). change (matter_qb64b x) with (matter_qb64 x) in T1. change (matter_qb64b y) with (matter_qb64 y) in T2. destruct (parsed_reparse P _ _ _ W1 T1) as [Y1 _]. destruct (parsed_reparse P _ _ _ W2 T2) as [Y2 _]. congruence.
  - right. exists O, d, x, y, t1, t2. repeat (split; [auto; fail|]). destruct (C53_verify_iff_pf C d t1 (Dd d (or_introl eq_refl))) as (c1 & B1 & X1). destruct (C53_verify_iff_pf C d t2 (Dd d (or_introl eq_refl))) as (c2 & B2 & X2).
    rewrite D1 in B1. rewrite D2 in B2. apply Ok_inj in B1, B2. subst c1 c2. pose proof (proj1 X1 eq_refl). pose proof (proj1 X2 eq_refl). congruence.
Qed.
(** C77: keys do verify against the digests made of their texts. *)
Lemma C77_announce_pf : forall (P : Profile) (C : Crypto) (F : Floats) (codes : list bytes) (texts : list bytes) (keys digests : list matter), hash_contract C -> (forall c, In c codes -> In c (map fst digest_sizes)) ->
  Forall2 (fun k t => matter_qb64b k = Ok t) keys texts -> Forall2 (fun ct d => diger_of (snd ct) (Some (fst ct)) = Ok d) (combine codes texts) digests -> len codes = len texts ->
  announced digests keys.
Proof.
  intros P C F codes texts keys digests HC Hc Fk. revert codes digests Hc. induction Fk as [|k t keys texts K Fk IH]; intros codes digests Hc Fd L.
  - destruct codes; inversion Fd; constructor.
  - destruct codes as [|c codes]; [rewrite len_cons in L; change (@len bytes []) with 0 in L; clear - L; exfalso; Lia.lia|]. cbn [combine] in Fd. inversion Fd as [|? d ? ds D Fd']; subst. constructor; [|apply (IH codes); auto; [intros; apply Hc; right; auto|rewrite !len_cons in L; clear - L; Lia.lia]].
    exists t. split; [exact K|]. destruct (code_size c (Hc c (or_introl eq_refl))) as [n Hn]. destruct (C53_digest_pf P C c t n HC Hn) as (d' & D' & _ & _ & _ & _ & V). cbn [fst snd] in D. rewrite D in D'. apply Ok_inj in D'. subst d'. rewrite V, beqb_refl. reflexivity.
Qed.
(** C77: a log is extended by saidifying an object with the right "p", "s" and "i". *)
Lemma C77_extend_pf : forall (P : Profile) (C : Crypto) (F : Floats) (first : sadder -> Prop) (a : sadder) (l : list sadder) (code : option bytes) (pre post : list (bytes * data)) (old n : N) (q i t : bytes) (x : matter) (sad : data),
  hash_contract C -> event_log first (a :: l) -> sadder_said a = Ok q -> serder_sn a = Ok n -> serder_pre a = Ok i ->
  ~ In (s2b "d") (map fst pre) -> len (to_json (VObj pre)) <= 7 ->
  let o := pre ++ (s2b "v", VStr (version_text (s2b "KERI") 1 0 (s2b "JSON") old)) :: post in
  In (s2b "p", VStr q) o -> In (s2b "s", VStr t) o -> sequence_text t (n + 1) -> In (s2b "i", VStr i) o ->
  survives F (VObj o) -> len (to_json sad) < 2 ^ 32 -> old < 2 ^ 24 ->
  saidify (VObj o) code None None None = Ok (x, sad) ->
  exists b, serder_new code None None (Some sad) None = Ok b /\ event_log first (b :: a :: l).
Proof.
  intros P C F first a l code pre post old n q i t x sad HC Hl Sa Na Ia Nd L o Ip Is St Ii Sv Ls Lo H.
  destruct (C61_end_to_end_pf P C F code pre post (s2b "KERI") old x sad [] HC Nd L Sv Ls Lo eq_refl H serder_new (or_introl (conj eq_refl eq_refl))) as (b & Hb & Kb & Xb & Rb & Lb & Vb). rewrite app_nil_r in Lb. exists b. split; [exact Hb|].
  pose proof Sv as [G _]. inversion G as [| | | | | |? No _]. assert (Get : exists k, sad = VObj k /\ NoDup (map fst k) /\ forall e, e <> s2b "v" -> e <> s2b "d" -> map_get e k = map_get e o).
  { apply C51_saidify_pf in H; auto. cbn [unwrap_or] in H. destruct H as (Id & _ & _ & o' & q' & So & _ & _ & ->). exists (put (s2b "d") (VStr q') o').
    assert (No' : NoDup (map fst o') /\ forall e, e <> s2b "v" -> map_get e o' = map_get e (put (s2b "d") (placeholder (unwrap_or code (s2b "E"))) o)).
    { pose proof (put_NoDup (s2b "d") (placeholder (unwrap_or code (s2b "E"))) o No) as Np. destruct So as [[_ ->]|(id & m & kk & _ & _ & _ & _ & _ & _ & ->)]; [auto|]. split; [apply put_NoDup; exact Np|]. intros e He. rewrite put_get by exact Np. destruct (bytes_eqb e (s2b "v")) eqn:E; [apply bytes_eqb_eq in E; contradiction|reflexivity]. }
    destruct No' as [No' Go]. split; [reflexivity|]. split; [apply put_NoDup; exact No'|]. intros e He Hd. rewrite put_get by exact No'. destruct (bytes_eqb e (s2b "d")) eqn:E; [apply bytes_eqb_eq in E; contradiction|]. rewrite Go by exact He. rewrite put_get by exact No. rewrite E. reflexivity. }
  destruct Get as (k & -> & Nk & Gk). constructor; [exact Hl|exists code, (sd_raw b); exact Lb|unfold verified; apply Vb|].
  assert (Hh : holds b k) by (split; auto). exists q, n, i. split; [exact Sa|]. split; [rewrite Kb; cbn [vget]; rewrite Gk, (In_map_get _ _ _ No Ip) by discriminate; reflexivity|]. split; [exact Na|]. split; [|split; [exact Ia|]].
  - apply (proj1 (C62_sequence_pf P C F b k Hh)). exists t. split; [|exact St]. apply map_get_In. rewrite Gk by discriminate. apply In_map_get; auto.
  - unfold serder_pre. rewrite Kb. cbn [vget]. rewrite Gk, (In_map_get _ _ _ No Ii) by discriminate. reflexivity.
Qed.

Lemma sum_contract : hash_contract sum_crypto.
Proof.
  intros code n ser I. cbn [x_hash sum_crypto]. unfold sum_hash. rewrite len_rep. split.
  - cbn in I. repeat (destruct I as [I|I]; [injection I as <- <-; reflexivity|]). destruct I.
  - apply forallb_rep. unfold byte_ok. pose proof (N.mod_lt (fold_left N.add ser 0) 256). lia.
Qed.
Lemma no_floats_shape : float_shape no_floats.
Proof. intros t u Z. discriminate Z. Qed.
(** a log of two events; another log differs in the newest event; the identifiers tell them apart *)
Lemma C77_history_ex_pf : forall P : Profile, hash_contract sum_crypto /\ float_shape no_floats /\
  let a := said_event (toy_icp (s2b "x")) in let b := said_event (toy_rot a (s2b "1") 7) in let b' := said_event (toy_rot a (s2b "1") 8) in
  event_log (C := sum_crypto) (F := no_floats) (verified (C := sum_crypto)) [b; a] /\ event_log (C := sum_crypto) (F := no_floats) (verified (C := sum_crypto)) [b'; a] /\
  serder_pre b = serder_pre b' /\ sadder_said b <> sadder_said b' /\ sd_ked b <> sd_ked b'.
Proof.
  intros P. split; [exact sum_contract|]. split; [exact no_floats_shape|]. intros a b b'.
  assert (La : event_log (C := sum_crypto) (F := no_floats) (verified (C := sum_crypto)) [a]). { constructor; [exists None, (sd_raw a); vm_compute; reflexivity|vm_compute; reflexivity|vm_compute; reflexivity]. }
  assert (X : forall n, n = 7%Z \/ n = 8%Z -> let b := said_event (toy_rot a (s2b "1") n) in event_log (C := sum_crypto) (F := no_floats) (verified (C := sum_crypto)) [b; a]).
  { intros n Hn. destruct Hn as [-> | ->]; (constructor; [exact La|match goal with |- from_bytes ?e => exists None, (sd_raw e); vm_compute; reflexivity end|vm_compute; reflexivity|]); (exists (match sadder_said a with Ok q => q | _ => [] end), 0, (s2b "x"); repeat (split; [vm_compute; reflexivity|]); vm_compute; reflexivity). }
  split; [apply X; auto|]. split; [apply X; auto|]. split; [vm_compute; reflexivity|]. split; vm_compute; intros Z; discriminate Z.
Qed.
Lemma C77_history_self_addressing_ex_pf : forall P : Profile, let a := prefix_event (toy_icp []) in let b := said_event (toy_rot a (s2b "1") 7) in
  event_log (C := sum_crypto) (F := no_floats) (self_addressed (C := sum_crypto)) [b; a] /\ serder_pre b = sadder_said a /\ sd_size a = 152.
Proof.
  intros P a b. split; [|split; vm_compute; reflexivity].
  assert (La : event_log (C := sum_crypto) (F := no_floats) (self_addressed (C := sum_crypto)) [a]).
  { constructor; [exists None, (sd_raw a); vm_compute; reflexivity| |vm_compute; reflexivity]. split; [exists (match sd_ked a with VObj ((_, VStr v) :: _) => v | _ => [] end), (match sd_ked a with VObj (_ :: r) => r | _ => [] end); vm_compute; reflexivity|]. split; [vm_compute; reflexivity|]. exists (match sadder_said a with Ok q => q | _ => [] end). split; vm_compute; reflexivity. }
  constructor; [exact La|exists None, (sd_raw b); vm_compute; reflexivity|vm_compute; reflexivity|].
  exists (match sadder_said a with Ok q => q | _ => [] end), 0, (match sadder_said a with Ok q => q | _ => [] end). repeat (split; [vm_compute; reflexivity|]). vm_compute; reflexivity.
Qed.
(** C77 refuted: an identifier alone does not determine the event, with any digest function: a first event
    whose prefix is its identifier, and the same event with a placeholder as its prefix, verified
    the other way, are digests of the same text *)
Lemma C77_identifier_refuted_pf : forall P : Profile, let a := prefix_event (toy_icp []) in let b := said_event (toy_icp (rep 35 44)) in
  from_bytes (C := sum_crypto) (F := no_floats) a /\ from_bytes (C := sum_crypto) (F := no_floats) b /\ self_addressed (C := sum_crypto) a /\ verified (C := sum_crypto) b /\ sadder_said a = sadder_said b /\ serder_pre a <> serder_pre b /\
  exists t, digested a t /\ digested b t.
Proof.
  intros P a b. split; [exists None, (sd_raw a); vm_compute; reflexivity|]. split; [exists None, (sd_raw b); vm_compute; reflexivity|]. split.
  { split; [exists (match sd_ked a with VObj ((_, VStr v) :: _) => v | _ => [] end), (match sd_ked a with VObj (_ :: r) => r | _ => [] end); vm_compute; reflexivity|]. split; [vm_compute; reflexivity|]. exists (match sadder_said a with Ok q => q | _ => [] end). split; vm_compute; reflexivity. }
  split; [vm_compute; reflexivity|]. split; [vm_compute; reflexivity|]. split; [vm_compute; intros Z; discriminate Z|].
  exists (to_json (VObj (put (s2b "d") (placeholder (s2b "E")) (match sd_ked b with VObj o => o | _ => [] end)))). split.
  - exists (match sd_ked a with VObj o => o | _ => [] end). split; [vm_compute; reflexivity|]. right. exists (s2b "KERI"), 152, 6. split; [vm_compute; left; reflexivity|]. split; [left; reflexivity|]. split; [vm_compute; reflexivity|]. cbv zeta. split; [apply rever_find_first; vm_compute; reflexivity|]. split; [vm_compute; discriminate|]. split; vm_compute; reflexivity.
  - exists (match sd_ked b with VObj o => o | _ => [] end). split; [vm_compute; reflexivity|]. left. vm_compute. reflexivity.
Qed.
(** keys and the digests that announce them *)
Lemma C77_rotation_ex_pf : forall P : Profile, let k1 := Mat (s2b "D") 0 (rep 1 32) in let k2 := Mat (s2b "D") 0 (rep 2 32) in
  exists t1 t2 d1 d2, matter_qb64b k1 = Ok t1 /\ matter_qb64b k2 = Ok t2 /\ diger_of (H := sum_crypto) t1 (Some (s2b "E")) = Ok d1 /\ diger_of (H := sum_crypto) t2 (Some (s2b "G")) = Ok d2 /\
  announced (C := sum_crypto) [d1; d2] [k1; k2] /\ ~ announced (C := sum_crypto) [d1; d2] [k2; k1].
Proof.
  intros P k1 k2. set (t k := match matter_qb64b k with Ok t => t | _ => [] end). set (d c k := match diger_of (H := sum_crypto) (t k) (Some c) with Ok m => m | _ => k end). exists (t k1), (t k2), (d (s2b "E") k1), (d (s2b "G") k2).
  split; [vm_compute; reflexivity|]. split; [vm_compute; reflexivity|]. split; [vm_compute; reflexivity|]. split; [vm_compute; reflexivity|]. split.
  - constructor; [exists (t k1); split; vm_compute; reflexivity|]. constructor; [exists (t k2); split; vm_compute; reflexivity|constructor].
  - intros Z. inversion Z as [|? ? ? ? (u & T & D) _]; subst. vm_compute in T. apply Ok_inj in T. subst u. vm_compute in D. discriminate D.
Qed.
(** C77: the bytes of a verified event are its content in compact JSON (but for the case of
    letters), if the content has no floats and its version string is the one that was read. *)
Lemma C77_bytes_pf : forall (P : Profile) (C : Crypto) (F : Floats) (s : sadder), hash_contract C -> float_shape F -> from_bytes s -> verified s ->
  good (fun _ => False) (sd_ked s) -> vget (sd_ked s) (s2b "v") = Ok (VStr (version_text (s2b "KERI") 1 0 (s2b "JSON") (sd_size s))) ->
  len (sd_raw s) = len (to_json (sd_ked s)) /\ map lower (sd_raw s) = map lower (to_json (sd_ked s)).
Proof.
  intros P C F s HC FC Es Vs Gn Gv. destruct (event_facts s FC Es) as (o & t & K & G & N & Md & Pt & Ic). destruct (verified_said s Vs) as (q & Q). destruct (event_diger s q FC Es Q) as [D _].
  destruct Es as (code & raw & L). apply C50_load_pf in L. destruct L as (size & v & m & An & Ls & U & J & _ & Es).
  assert (E1 : sd_size s = size /\ sd_raw s = take size raw /\ sd_ked s = v) by (rewrite Es; auto). clear Es. destruct E1 as (Ez & Er & Ek). rewrite Ek in K. subst v. rewrite Ek in *. rewrite Ez in Gv. destruct (C75_shortest_pf F _ _ J Gn) as [Le Lo]. rewrite Er. assert (Lr : len (take size raw) = size) by (rewrite len_take; clear - Ls; Lia.lia). rewrite Lr in Le, Lo.
  assert (Hs : size < 2 ^ 24) by apply An. cut (size = len (to_json (VObj o))); [intros X; split; [congruence|apply Lo; exact X]|].
  unfold verified in Vs. rewrite Ek in Vs. apply C52_verify_pf in Vs; auto. cbn [unwrap_or] in Vs. destruct Vs as (_ & o' & So & _ & Ev & Ep). rewrite (Ev ltac:(discriminate)) in So. clear Ev. destruct (Ep eq_refl) as (q' & Q' & Id). rewrite Q in Q'. apply Ok_inj in Q'. subst q'. clear Ep.
  destruct (said_text_len _ _ D Q) as (Lq & Pq & _). set (c := m_code (sd_saider s)) in *. cbn [vget] in Gv. destruct (map_get (s2b "v") o) as [w|] eqn:Mv; [|discriminate Gv]. apply Ok_inj in Gv. subst w.
  assert (Le2 : len (to_json (VObj (put (s2b "d") (placeholder c) o))) = len (to_json (VObj o))).
  { rewrite <- (put_same (s2b "d") (VStr q) o) at 2; [|exact N|apply In_map_get; auto]. unfold placeholder. apply len_swap; auto; [|rewrite len_rep; auto]. unfold CommonFacts2.plain. destruct (len c =? 1); vm_compute; reflexivity. }
  assert (Np : NoDup (map fst (put (s2b "d") (placeholder c) o))) by (apply put_NoDup; exact N). assert (Gp : map_get (s2b "v") (put (s2b "d") (placeholder c) o) = Some (VStr (version_text (s2b "KERI") 1 0 (s2b "JSON") size))) by (rewrite put_get by exact N; exact Mv).
  destruct So as [[Nv _]|(id & m' & k & Iv & Hid & Hm' & _ & _ & Hn & E)]; [exfalso; apply Nv; apply map_get_In in Gp; apply in_map_iff; eexists; split; [|exact Gp]; reflexivity|].
  apply (f_equal (map_get (s2b "v"))) in E. rewrite Gp, put_get, beqb_refl in E by exact Np. apply (f_equal (fun x => match x with Some (VStr w) => w | _ => [] end)) in E. cbv beta iota in E. apply vtext_inj in E as [_ E]; [|apply known_tag; right; left; reflexivity|apply known_tag; destruct Hid as [-> | ->]; cbn; auto|exact Hs|exact Hn].
  rewrite Le2 in E. rewrite N.mod_small in E by (clear - Le Hs; change (2 ^ 24) with 16777216 in Hs; change (2 ^ 32) with 4294967296; Lia.lia). exact E.
Qed.
Lemma C77_bytes_ex_pf : forall P : Profile, let a := said_event (toy_icp (s2b "x")) in from_bytes (C := sum_crypto) (F := no_floats) a /\ verified (C := sum_crypto) a /\ good (fun _ => False) (sd_ked a) /\
  vget (sd_ked a) (s2b "v") = Ok (VStr (version_text (s2b "KERI") 1 0 (s2b "JSON") (sd_size a))).
Proof.
  intros P a. split; [exists None, (sd_raw a); vm_compute; reflexivity|]. split; [vm_compute; reflexivity|]. split; [|vm_compute; reflexivity].
  destruct P; vm_compute; (constructor; [repeat constructor; cbn; intuition discriminate|]; intros k v I; cbn [In] in I; repeat (destruct I as [I|I]; [injection I as <- <-; constructor; try (intros ? [])|]); destruct I).
Qed.
(** C77 refuted: in general the bytes are not determined by the verified content: "v" can be given twice, the first
    is the one that is read as the version string, the second is the one that is verified *)
Lemma C77_bytes_refuted_pf : forall P : Profile, let a := said_event (toy_icp (s2b "x")) in
  let raw := s2b "{""v"":""" ++ version_text (s2b "KERI") 1 0 (s2b "JSON") (len (sd_raw a) + 24) ++ s2b """," ++ drop 1 (sd_raw a) in
  exists s, serder_new (H0 := sum_crypto) (H1 := no_floats) None (Some raw) None None None = Ok s /\ sd_raw s = raw /\ verified (C := sum_crypto) s /\ sd_ked s = sd_ked a /\ sd_saider s = sd_saider a /\ sd_raw s <> sd_raw a /\
    good (fun _ => False) (sd_ked s).
Proof.
  intros P a raw. exists (Sdr (sd_code a) raw (sd_ked a) (sd_ident a) (sd_kind a) (len raw) (sd_version a) (sd_saider a)). split; [vm_compute; reflexivity|]. split; [reflexivity|]. split; [vm_compute; reflexivity|]. split; [reflexivity|]. split; [reflexivity|]. split; [vm_compute; intros Z; discriminate Z|].
  apply (C77_bytes_ex_pf P).
Qed.
Lemma C77_extend_ex_pf : forall P : Profile, let a := said_event (toy_icp (s2b "x")) in let o := toy_rot a (s2b "1") 7 in
  o = [] ++ (s2b "v", VStr (version_text (s2b "KERI") 1 0 (s2b "JSON") 0)) :: tl o /\ survives no_floats (VObj o) /\ sequence_text (s2b "1") (0 + 1) /\
  exists x sad, saidify (H0 := sum_crypto) (VObj o) None None None None = Ok (x, sad) /\ len (to_json sad) < 2 ^ 32.
Proof.
  intros P a o. split; [reflexivity|]. split; [split; [|split; [|destruct P; vm_compute; discriminate]]|].
  - destruct P; vm_compute; (constructor; [repeat constructor; cbn; intuition discriminate|]; intros k v I; cbn [In] in I; repeat (destruct I as [I|I]; [injection I as <- <-; constructor; try (intros ? []); try Lia.lia|]); destruct I).
  - destruct P; vm_compute; (constructor; intros k v I; cbn [In] in I; repeat (destruct I as [I|I]; [injection I as <- <-; split; [vm_compute; reflexivity|constructor; vm_compute; reflexivity]|]); destruct I).
  - split; [left; apply (to_hex_input 1); reflexivity|]. set (r := saidify (H0 := sum_crypto) (VObj o) None None None None). exists (match r with Ok (x, _) => x | _ => Mat [] 0 [] end), (match r with Ok (_, d) => d | _ => VNull end). split; destruct P; vm_compute; reflexivity.
Qed.
