From Verif Require Import Base StdStr Data Json Spec PrimsDefs DataDefs GrammarDefs.
From Verif Require Import BaseFacts StdStrFacts DataFacts JsonFacts ImportFacts GrammarFacts.

Lemma from_str_cases `{F : Floats} s : json_from_str s = Err E_Json \/ exists j, json_from_str s = Ok j.
Proof. unfold json_from_str. destruct (json_read_depth 128 s); eauto. Qed.
Lemma from_str_iff `{F : Floats} s j : json_from_str s = Ok j <-> jtext 127 s j.
Proof.
  rewrite <- (json_read_iff 128 s j ltac:(discriminate)). unfold json_from_str. destruct (json_read_depth 128 s); split; intros H; try discriminate H; congruence.
Qed.
(** C71: the JSON texts that are read are exactly those of the grammar with at most 127 nested arrays and objects, and each is read as what it stands for *)
Lemma C71_reads_pf : forall (F : Floats) (s : bytes),
  (forall j, json_from_str s = Ok j <-> jtext 127 s j) /\ (json_from_str s = Err E_Json <-> forall j, ~ jtext 127 s j).
Proof.
  intros F s. split; [apply from_str_iff|split].
  - intros E j H. apply from_str_iff in H. congruence.
  - intros H. destruct (from_str_cases s) as [Y|[j Y]]; [exact Y|]. exfalso. apply (H j), from_str_iff, Y.
Qed.
(** C71: a text of the grammar stands for one document *)
Lemma C71_unambiguous_pf : forall (F : Floats) (d : nat) (s : bytes) (j j' : json), jtext d s j -> jtext d s j' -> j = j'.
Proof.
  intros F d s j j' A B. assert (E : N.to_nat (N.of_nat d + 1 - 1) = d) by (rewrite N.add_sub; apply Nat2N.id).
  rewrite <- E in A, B. apply json_read_iff in A; [|lia]. apply json_read_iff in B; [|lia]. congruence.
Qed.

Lemma import_same (fl : bytes -> Prop) j : jwf fl j -> forall v, import j = Ok v <-> same j v.
Proof.
  induction j as [|b|n|s|a IH|o IH] using json_ind'; intros W v.
  - cbn. split; [intros X; injection X as <-; constructor|inversion 1; reflexivity].
  - cbn. split; [intros X; injection X as <-; constructor|inversion 1; reflexivity].
  - cbn [import]. unfold import_num. destruct n as [n|z|t]; cbn [jnum_text jnum_as_i64].
    + rewrite to_dec_no_dot. destruct (N.ltb_spec n (2 ^ 63)) as [E|E].
      * split; [intros X; injection X as <-; constructor; exact E|inversion 1; subst; reflexivity].
      * split; [discriminate|]. inversion 1; subst. Lia.lia.
    + rewrite show_int_no_dot. split; [intros X; injection X as <-; constructor|inversion 1; subst; reflexivity].
    + destruct (existsb (N.eqb 46) t) eqn:E.
      * split; [intros X; injection X as <-; constructor; apply dot_iff; exact E|inversion 1; subst; reflexivity].
      * split; [discriminate|]. inversion 1 as [| | | |? Hd| | |]; subst. apply dot_iff in Hd. congruence.
  - cbn. split; [intros X; injection X as <-; constructor|inversion 1; reflexivity].
  - rewrite import_arr. inversion W as [| | | | | |? Wa|]; subst.
    assert (X : forall l, import_list a = Ok l <-> Forall2 same a l).
    { clear W. induction IH as [|j a Hj Ha IHa]; intros l; cbn [import_list].
      - split; [intros X; injection X as <-; constructor|inversion 1; reflexivity].
      - specialize (Hj (Wa j (or_introl eq_refl))). specialize (IHa (fun w I => Wa w (or_intror I))). split.
        + destruct (import j) as [w| |]; try discriminate. cbn [obind]. destruct (import_list a) as [l'| |]; try discriminate. cbn [obind]. intros X. injection X as <-. constructor; [apply Hj; reflexivity|apply IHa; reflexivity].
        + inversion 1 as [|? w ? l' Hw Hl]; subst. apply Hj in Hw. apply IHa in Hl. rewrite Hw, Hl. reflexivity. }
    split.
    + destruct (import_list a) as [l| |]; try discriminate. cbn. intros Y. injection Y as <-. constructor. apply X. reflexivity.
    + inversion 1 as [| | | | | |? l Hl|]; subst. apply X in Hl. rewrite Hl. reflexivity.
  - rewrite import_obj. inversion W as [| | | | | | |? Wn Wo]; subst.
    assert (X : forall acc l, NoDup (map fst acc ++ map fst o) -> import_map o acc = Ok l <-> exists l', l = acc ++ l' /\ Forall2 (fun x y => fst x = fst y /\ same (snd x) (snd y)) o l').
    { clear W Wn. induction IH as [|[k j] o Hj Ho IHo]; intros acc l Hn; cbn [import_map].
      - split; [intros X; injection X as <-; exists []; rewrite app_nil_r; split; [reflexivity|constructor]|]. intros (l' & -> & H). inversion H. rewrite app_nil_r. reflexivity.
      - cbn [snd fst map] in *. specialize (Hj (Wo k j (or_introl eq_refl))). assert (Nk : ~ In k (map fst acc)) by (apply NoDup_remove_2 in Hn; rewrite in_app_iff in Hn; tauto).
        assert (Hn' : forall w : data, NoDup (map fst (acc ++ [(k, w)]) ++ map fst o)) by (intros w; rewrite map_app, <- app_assoc; exact Hn).
        specialize (IHo (fun k' w I => Wo k' w (or_intror I))). split.
        + destruct (import j) as [w| |]; try discriminate. cbn [obind]. rewrite map_insert_new by exact Nk. intros E. apply (IHo _ _ (Hn' w)) in E as (l' & -> & H). exists ((k, w) :: l'). rewrite <- app_assoc. split; [reflexivity|]. constructor; [split; [reflexivity|apply Hj; reflexivity]|exact H].
        + intros (l' & -> & H). inversion H as [|? [k' w] ? l2 [Hk Hw] Hl]; subst. cbn [fst snd] in *. subst k'. apply Hj in Hw. rewrite Hw. cbn [obind]. rewrite map_insert_new by exact Nk. apply (IHo _ _ (Hn' w)). exists l2. rewrite <- app_assoc. split; [reflexivity|exact Hl]. }
    split.
    + destruct (import_map o []) as [l| |] eqn:E; try discriminate. cbn. intros Y. injection Y as <-. apply (X [] l Wn) in E as (l' & -> & H). constructor. exact H.
    + inversion 1 as [| | | | | | |? l Hl]; subst. rewrite (proj2 (X [] l Wn)); [reflexivity|]. exists l. auto.
Qed.
(** C71: the [Value] of a text is that of the document it stands for; a document that has none, because of one of its numbers, is a crash; all other texts are errors *)
Lemma C71_value_pf : forall (F : Floats) (s : bytes),
  (forall v, from_json s = Ok v <-> exists j, jtext 127 s j /\ same j v) /\
  (from_json s = Err E_Json <-> forall j, ~ jtext 127 s j) /\
  (from_json s = Panic <-> exists j, jtext 127 s j /\ forall v, ~ same j v).
Proof.
  intros F s. unfold from_json. destruct (from_str_cases s) as [E|[j E]]; rewrite E; cbn [obind].
  - destruct (C71_reads_pf F s) as [_ R]. pose proof (proj1 R E) as No. split; [|split].
    + intros v. split; [discriminate|]. intros (j & H & _). exfalso. apply (No j H).
    + split; [intros _; exact No|reflexivity].
    + split; [discriminate|]. intros (j & H & _). exfalso. apply (No j H).
  - assert (W : jwf read_fl j). { unfold json_from_str in E. destruct (json_read_depth 128 s) as [j'|] eqn:Ej; [|discriminate]. injection E as ->. apply (json_read_jok 128 s j) in Ej; [apply Ej|lia]. }
    apply from_str_iff in E. assert (U : forall j', jtext 127 s j' -> j' = j) by (intros j' H; eapply C71_unambiguous_pf; eauto). split; [|split].
    + intros v. rewrite (import_same _ j W v). split; [eauto|]. intros (j' & H & Sm). apply U in H. subst. exact Sm.
    + destruct (import_total j) as [[_ Ei]|[_ [v Ei]]]; rewrite Ei; (split; [discriminate|intros No; exfalso; apply (No j E)]).
    + split.
      * intros Ei. exists j. split; [exact E|]. intros v Sm. apply (import_same _ j W v) in Sm. congruence.
      * intros (j' & H & No). apply U in H. subst j'. destruct (import_total j) as [[_ Ei]|[_ [v Ei]]]; [exact Ei|]. exfalso. apply (No v). apply (import_same _ j W v). exact Ei.
Qed.
(** a document with white space, escapes, a surrogate pair, numbers of all kinds and a repeated key; documents with an integer too large for an i64; and texts that are no documents *)
Lemma C71_value_ex_pf : forall F : Floats,
  (let s := [32] ++ s2b "{ ""a\u00e9\uD83D\ude00\/"" :[ 1,-2 , true,null]," ++ [10; 9] ++ s2b """b"":{} , ""a\u00e9\uD83D\ude00\/"":[18446744073709551615] } " in
   let k := s2b "a" ++ [195; 169; 240; 159; 152; 128; 47] in
   jtext 127 s (JObj [(k, JArr [JNum (JPos 18446744073709551615)]); (s2b "b", JObj [])]) /\ forall v, ~ same (JObj [(k, JArr [JNum (JPos 18446744073709551615)]); (s2b "b", JObj [])]) v) /\
  (exists j, jtext 127 (s2b "[""\u0041\n"", false,-9223372036854775808]") j /\ same j (VArr [VStr [65; 10]; VBool false; VInt (- 2 ^ 63)])) /\
  forall s, In s (map s2b ["01"; "1."; "+1"; "[1,]"; "{""a"":1,}"; "'a'"; """\ud83d"""; """\u12"""; "nul"; "[1 2]"; ""; "{a:1}"]%string) -> forall j, ~ jtext 127 s j.
Proof.
  intros F. split; [|split].
  - cbv zeta. split; [apply from_str_iff; vm_compute; reflexivity|]. intros v H. inversion H as [| | | | | | |? p Hp]; subst. inversion Hp as [|? y ? l [_ Hy] _]; subst. cbn [snd] in Hy. inversion Hy as [| | | | | |? b Hb|]; subst. inversion Hb as [|? z ? l' Hz _]; subst. inversion Hz as [| |? Hn| | | | |]; subst. discriminate Hn.
  - exists (JArr [JStr [65; 10]; JBool false; JNum (JNeg (- 2 ^ 63))]). split; [apply from_str_iff; vm_compute; reflexivity|]. repeat constructor.
  - intros s I. apply (proj2 (C71_reads_pf F s)). cbn [map In] in I. repeat (destruct I as [<-|I]; [vm_compute; reflexivity|]). destruct I.
Qed.
