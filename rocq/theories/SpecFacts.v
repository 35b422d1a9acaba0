(** Links between the specification vocabulary and the model's helpers. *)
From Verif Require Import Base BaseFacts Utf8 B64 B64Facts Util UtilFacts MatterTables Matter MatterFacts MatterFacts2 MatterFacts3 Spec.

Lemma value_val b l : value b l = val b l.
Proof. induction l as [|d r IH]; [reflexivity|]. cbn [value]. rewrite val_cons, IH. reflexivity. Qed.

Lemma numeral_digits b k n : 0 < b -> numeral b k n = digits b k n.
Proof.
  intros Hb. revert n. induction k as [|k IH]; intros n; [reflexivity|].
  cbn [numeral]. rewrite IH. change (S k) with (1 + k)%nat. rewrite digits_split by auto. cbn [digits app]. reflexivity.
Qed.

Lemma b64_numeral_digits k n : b64_numeral k n = map chr64 (digits 64 (N.to_nat k) n).
Proof. unfold b64_numeral. rewrite numeral_digits by lia. reflexivity. Qed.

Lemma len_b64_numeral k n : len (b64_numeral k n) = k.
Proof. rewrite b64_numeral_digits, len_map, len_digits. lia. Qed.

Lemma b64_of_encode bs : bytes_ok bs = true -> len bs mod 3 = 0 -> b64_of bs = b64_encode bs.
Proof.
  intros Hok H. unfold b64_of. rewrite b64_numeral_digits, value_val, b64_encode_full by auto. f_equal.
  rewrite <- val_sextets by auto. rewrite <- (digits_val 64 (sextets bs)) at 2; [|lia|apply sextets_lt; auto].
  f_equal. pose proof (len_sextets bs) as L. unfold len in L at 1. lia.
Qed.

Lemma b64_of_app a b : bytes_ok a = true -> bytes_ok b = true -> len a mod 3 = 0 -> len b mod 3 = 0 -> b64_of (a ++ b) = b64_of a ++ b64_of b.
Proof.
  intros. rewrite !b64_of_encode; auto; [apply b64_encode_app; auto|rewrite bytes_ok_app; apply andb_true_iff; auto|rewrite len_app; lia].
Qed.

Lemma position_None c l i : position c l i = None -> ~ In c l.
Proof.
  revert i. induction l as [|x r IH]; intros i H; [intros []|]. cbn in H. destruct (N.eqb_spec c x); [discriminate|].
  intros [->|I]; [congruence|]. eapply IH; eauto.
Qed.
Lemma position_Some c l i j : position c l i = Some j -> In c l.
Proof.
  revert i. induction l as [|x r IH]; intros i H; [discriminate|]. cbn in H. destruct (N.eqb_spec c x); [left; auto|]. right. eapply IH; eauto.
Qed.
Lemma is_b64_In c : is_b64 c = true <-> In c b64_alphabet.
Proof.
  unfold is_b64, ord64. change b64_alphabet with alphabet. destruct (position c alphabet 0) eqn:E; split; auto; intros H.
  - eapply position_Some; eauto.
  - discriminate.
  - exfalso. eapply position_None; eauto.
Qed.
Lemma b64_text_all t : b64_text t <-> all_b64 t = true.
Proof.
  unfold b64_text, all_b64. rewrite forallb_forall. split; intros H c Hc; apply is_b64_In; auto.
Qed.

(** table correspondence *)
Lemma fixed_code_sizage c rs f : In (c, (rs, f)) fixed_codes ->
  exists z, get_sizage c = Ok z /\ variable z = false /\ fs z = f /\ (fs z - cs_of z) * 3 / 4 - ls z = rs.
Proof.
  intros H.
  assert (E : forallb (fun e => match get_sizage (fst e) with Ok z => negb (variable z) && (fs z =? snd (snd e)) && ((fs z - cs_of z) * 3 / 4 - ls z =? fst (snd e)) | _ => false end) fixed_codes = true) by (vm_compute; reflexivity).
  eapply forallb_forall in E; eauto. cbn [fst snd] in E. destruct (get_sizage c) as [z| |]; try discriminate.
  exists z. splitb E. destruct (variable z); [discriminate|]. repeat split; auto; lia.
Qed.
Lemma var_code_sizage c : In c variable_codes -> exists z, get_sizage c = Ok z /\ variable z = true.
Proof.
  intros H.
  assert (E : forallb (fun c => match get_sizage c with Ok z => variable z | _ => false end) variable_codes = true) by (vm_compute; reflexivity).
  eapply forallb_forall in E; eauto. destruct (get_sizage c) as [z| |]; try discriminate. eauto.
Qed.
Lemma table_code_sizage c : table_code c <-> exists z, get_sizage c = Ok z.
Proof.
  split.
  - intros [H|H].
    + apply in_map_iff in H as [[c' [rs f]] [E H]]. cbn in E. subst c'. destruct (fixed_code_sizage _ _ _ H) as [z [Hz _]]; eauto.
    + destruct (var_code_sizage _ H) as [z [Hz _]]; eauto.
  - intros [z Hz]. apply get_sizage_In in Hz.
    assert (E : forallb (fun e => mem_code (fst e) (map fst fixed_codes) || mem_code (fst e) variable_codes) sizage_table = true) by (vm_compute; reflexivity).
    eapply forallb_forall in E; eauto. cbn [fst] in E. apply orb_true_iff in E as [E|E]; apply mem_code_In in E; [left|right]; auto.
Qed.
Lemma boundary_false_iff t k : k <> 0 -> boundary t k = false <-> len t < k \/ inside t k.
Proof.
  intros Hk. unfold boundary, inside. destruct (nth_error t (N.to_nat k)) as [c|] eqn:E.
  - assert (k < len t). { assert (N.to_nat k < length t)%nat by (apply nth_error_Some; congruence). unfold len. lia. }
    replace (k =? 0) with false by lia. cbn [orb]. rewrite negb_false_iff. unfold is_cont. rewrite andb_true_iff, N.leb_le, N.ltb_lt. split.
    + intros Hc. right. exists c. auto.
    + intros [?|[c' [[= <-] Hc]]]; [lia|auto].
  - apply nth_error_None in E. rewrite N.eqb_neq. split.
    + intros Hn. left. unfold len in *. lia.
    + intros [Hl|[c [Hc _]]]; [lia|congruence].
Qed.
Lemma is_prefix_take p t : is_prefix p t <-> take (len p) t = p /\ len p <= len t.
Proof.
  unfold is_prefix. split.
  - intros [r ->]. split; [apply take_app_exact; auto|rewrite len_app; lia].
  - intros [E _]. exists (drop (len p) t). rewrite <- E at 1. symmetry. apply take_drop_id.
Qed.
