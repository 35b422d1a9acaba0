(** Properties C46 (white space) and C63 (pretty texts). *)
From Verif Require Import Base StdStr Data Json Spec DataDefs Prims Common Sadder SadderDefs LayoutDefs Pretty.
From Verif Require Import BaseFacts StdStrFacts DataFacts JsonFacts ImportFacts DataThms LayoutFacts PrettyFacts.

(** C46: white space anywhere in the JSON text of a value, where JSON allows it, does
    not change what is read. *)
Lemma C46_layout_pf : forall (F : Floats) (v : data) (w1 t w2 : bytes),
  good (fun t => float_text t /\ In 46 t /\ float_of_text t = Some t) v -> depth v <= 127 ->
  laid v t -> white w1 -> white w2 -> from_json (w1 ++ t ++ w2) = Ok v.
Proof.
  intros F v w1 t w2 G D L W1 W2. unfold from_json, json_from_str, json_read_depth. rewrite read_white by exact W1.
  rewrite (good_lreads (fun t => float_text t /\ In 46 t /\ float_of_text t = Some t) v ltac:(intros ? [? [? ?]]; split; assumption) G t L).
  - replace (skip_ws w2) with (@nil N) by (symmetry; rewrite <- (app_nil_r w2), skip_white by exact W2; reflexivity). cbn [obind]. eapply import_tree; [|exact G]. cbn. tauto.
  - rewrite !app_length. Lia.lia.
  - lia.
  - destruct w2 as [|c r]; [exact I|]. cbn. destruct (W2 c (or_introl eq_refl)) as [->|[->|[->| ->]]]; repeat split; try discriminate; intros [A B]; apply A; reflexivity.
Qed.
(** A text with white space in every place. *)
Lemma C46_layout_ex_pf : let v := VObj [(s2b "a", VArr [VInt 1; VArr []]); (s2b "b", VObj [])] in
  let t := s2b "{ ""a"" : [ 1 , [ ] ] ," ++ [10; 9] ++ s2b """b"":{ }" ++ [13] ++ s2b "}" in
  laid v t /\ from_json (H := toy_floats) ([32] ++ t ++ [10]) = Ok v.
Proof.
  intros v t. split; [|vm_compute; reflexivity]. subst v t.
  assert (B : white [32]) by apply white_blank. assert (N0 : white []) by apply white_nil.
  exists [], [s2b " ""a"" : [ 1 , [ ] ] "; [10; 9] ++ s2b """b"":{ }" ++ [13]]. split; [exact N0|]. split; [reflexivity|]. split; [|split; [|exact I]].
  - exists [32], [32], [32], [32], (s2b "[ 1 , [ ] ]"). do 4 (split; [exact B|]). split; [|reflexivity].
    exists [], [s2b " 1 "; s2b " [ ] "]. split; [exact N0|]. split; [reflexivity|]. split; [|split; [|exact I]].
    + exists [32], (s2b "1"), [32]. repeat split; auto.
    + exists [32], (s2b "[ ]"), [32]. do 2 (split; [exact B|]). split; [|reflexivity]. exists [32], []. split; [exact B|]. split; [reflexivity|exact I].
  - exists [10; 9], [], [], [13], (s2b "{ }"). split; [intros c [<-|[<-|[]]]; tauto|]. do 2 (split; [exact N0|]). split; [intros c [<-|[]]; tauto|]. split; [|reflexivity].
    exists [32], []. split; [exact B|]. split; [reflexivity|exact I].
Qed.

(** C63: the pretty text of an event or credential is the lines of its content, joined
    by line feeds.  It is returned whole if it has at most [size] bytes (1024 if no
    size is given); otherwise its first [size] bytes are, unless that cuts through a
    character, which panics. Content nested more than 127 deep gives an error. *)
Lemma C63_pretty_pf : forall (F : Floats) (s : sadder) (size : option N),
  let n := match size with Some n => n | None => 1024 end in
  let t := join [10] (lines (sd_ked s)) in
  good (fun t => float_text t /\ float_of_text t = Some t) (sd_ked s) ->
  (depth (sd_ked s) <= 127 ->
     (len t <= n -> sadder_pretty s size = Ok t) /\
     (n < len t -> boundary t n = true -> sadder_pretty s size = Ok (take n t)) /\
     (n < len t -> boundary t n = false -> sadder_pretty s size = Panic)) /\
  (127 < depth (sd_ked s) -> sadder_pretty s size = Err E_Json).
Proof.
  intros F s size n t G. unfold sadder_pretty, json_from_str. set (fl := fun t => float_text t /\ float_of_text t = Some t) in *. assert (Hfl : forall t, fl t -> float_text t /\ float_of_text t = Some t) by (intros ? X; exact X). split.
  - intros D. rewrite (read_back (F := F) fl (sd_ked s) 128 Hfl G ltac:(lia)). cbn [obind]. rewrite pretty_lines. fold t. change (unwrap_or size 1024) with n. repeat split.
    + intros H. replace (n <? len t) with false by lia. reflexivity.
    + intros H B. replace (n <? len t) with true by lia. unfold str_slice. replace (0 <=? n) with true by lia. replace (boundary t 0) with true by (symmetry; unfold boundary; destruct t; reflexivity). rewrite B. cbn [andb]. rewrite N.sub_0_r. reflexivity.
    + intros H B. replace (n <? len t) with true by lia. unfold str_slice. rewrite B, andb_false_r. reflexivity.
  - intros D. destruct (json_read_depth 128 (to_json (sd_ked s))) as [j|] eqn:E; [|reflexivity]. exfalso.
    pose proof (json_read_jok 128 _ _ ltac:(lia) E) as [_ Hj].
    pose proof (json_read_mono 128 (128 + depth (sd_ked s)) _ _ ltac:(lia) E) as E2.
    rewrite (read_back (F := F) fl (sd_ked s) (128 + depth (sd_ked s)) Hfl G ltac:(lia)) in E2. injection E2 as <-. rewrite depth_tree in Hj. lia.
Qed.
(** A text of nine lines; cut to seven bytes; and cut within a character, which panics. *)
Lemma C63_pretty_ex_pf : let v := VObj [(s2b "a", VArr [VInt 1; VObj [(s2b "x", VNull)]]); (s2b "e", VStr [195; 169]); (s2b "z", VArr [])] in
  let s := Sdr [] [] v [] [] 0 (Ver 1 0) verfer_default in
  let t := join [10] ([s2b "{"; s2b "  ""a"": ["; s2b "    1,"; s2b "    {"; s2b "      ""x"": null"; s2b "    }"; s2b "  ],"] ++ [s2b "  ""e"": """ ++ [195; 169] ++ s2b ""","; s2b "  ""z"": []"; s2b "}"]) in
  sadder_pretty (H := toy_floats) s None = Ok t /\ sadder_pretty (H := toy_floats) s (Some 7) = Ok (s2b "{" ++ [10] ++ s2b "  ""a""") /\
  sadder_pretty (H := toy_floats) s (Some 60) = Panic.
Proof. vm_compute. repeat split; reflexivity. Qed.

Lemma good_mono (p q : bytes -> Prop) x : (forall t, p t -> q t) -> good p x -> good q x.
Proof.
  intros Hpq. induction x as [|b|i|t|s|a IHa|o IHo] using value_ind'; intros G; inversion G; subst; constructor; auto.
  - intros v I. rewrite Forall_forall in IHa. auto.
  - intros k v I. rewrite Forall_forall in IHo. apply (IHo (k, v) I). eauto.
Qed.
(** C63: a pretty text that was not cut reads as the content. *)
Lemma C63_read_back_pf : forall (F : Floats) (s : sadder) (size : option N) (t : bytes),
  good (fun t => float_text t /\ In 46 t /\ float_of_text t = Some t) (sd_ked s) ->
  sadder_pretty s size = Ok t -> len t < match size with Some n => n | None => 1024 end ->
  from_json t = Ok (sd_ked s).
Proof.
  intros F s size t G H L. assert (G2 : good (fun t => float_text t /\ float_of_text t = Some t) (sd_ked s)) by (eapply good_mono; [|exact G]; cbn; tauto).
  destruct (C63_pretty_pf F s size G2) as [A B]. set (n := match size with Some n => n | None => 1024 end) in *. destruct (N.le_gt_cases (depth (sd_ked s)) 127) as [D|D]; [|rewrite (B D) in H; discriminate H].
  specialize (A D). set (u := join [10] (lines (sd_ked s))) in *. destruct A as (A1 & A2 & A3). destruct (N.le_gt_cases (len u) n) as [Q|Q].
  - rewrite A1 in H by exact Q. apply Ok_inj in H. subst t. rewrite <- (app_nil_r u). change (u ++ []) with ([] ++ u ++ []). apply C46_layout_pf; auto; try apply white_nil. unfold u. rewrite <- pretty_lines. eapply pretty_laid. exact G.
  - destruct (boundary u n) eqn:E; [rewrite A2 in H by auto|rewrite A3 in H by auto; discriminate H]. apply Ok_inj in H. subst t. exfalso. revert L. unfold len, take. rewrite firstn_length. unfold len in Q. Lia.lia.
Qed.
Lemma C63_read_back_ex_pf : let v := VObj [(s2b "a", VArr [VInt (-1); VStr [34; 10]])] in let s := Sdr [] [] v [] [] 0 (Ver 1 0) verfer_default in
  exists t, sadder_pretty (H := toy_floats) s None = Ok t /\ len t = 35 /\ t <> to_json v /\ from_json (H := toy_floats) t = Ok v.
Proof.
  intros v s. let r := eval vm_compute in (match sadder_pretty (H := toy_floats) s None with Ok t => t | _ => [] end) in exists r. split; [vm_compute; reflexivity|]. split; [vm_compute; reflexivity|]. split; [vm_compute; discriminate|vm_compute; reflexivity].
Qed.
