(** Property C64: streams of primitives, and groups with a count. *)
From Verif Require Import Base Utf8 Matter Counter Indexer Spec MatterDefs CounterDefs IndexerDefs StreamDefs.
From Verif Require Import BaseFacts B64 B64Facts UtilFacts SpecFacts MatterFacts MatterFacts2 MatterFacts3 MatterFacts4 MatterThms CounterFacts CounterThms IndexerFacts IndexerFacts2 IndexerFacts3 IndexerThms SadderFacts.

Lemma b64_utf8 t s : b64_text t -> utf8_valid s = true -> utf8_valid (t ++ s) = true.
Proof. intros B U. rewrite utf8_app; [exact U|]. apply utf8_ascii. apply b64_text_all in B. apply all_b64_ascii. exact B. Qed.
Lemma b64_of_text b : b64_text (b64_of b).
Proof. apply b64_text_all. unfold b64_of. rewrite b64_numeral_digits. apply all_b64_chr. apply digits_lt. lia. Qed.
Section S.
Context `{P : Profile}.
Lemma sig_lossless code raw s index ondex x : In (code, s) sig_codes -> bytes_ok raw = true -> new_sig code raw index ondex = Ok x -> (ondex = None \/ ondex = Some index \/ 0 < sig_ondex s) ->
  Idx code (x_raw x) index (shown_ondex s index (x_ondex x)) = x.
Proof.
  intros I B N D. destruct (C19_text_round_trip_pf P code raw s index ondex x I B N) as (t & Ht & _ & _ & _ & _ & _ & _ & _ & R). destruct (C19_same_indexer_pf P code raw s index ondex x I B N D) as (t' & Ht' & S).
  rewrite Ht in Ht'. apply Ok_inj in Ht'. subst t'. destruct (R [] eq_refl) as [R1 _]. rewrite app_nil_r in R1. rewrite S in R1. apply Ok_inj in R1. auto.
Qed.
Lemma item_ok i : proper i -> exists t, item_text i = Ok t /\ item_size i = Ok (len t) /\ b64_text t /\ forall tail, utf8_valid tail = true -> parse_item (kind_of i) (t ++ tail) = Ok i.
Proof.
  destruct i as [m|c|x]; cbn [proper item_text item_size kind_of parse_item].
  - intros K. destruct (C04_self_framing_pf P m K) as (t & b & Ht & Hb & Hs & _ & R & _). destruct (C03_composable_pf P m K) as (t' & b' & _ & _ & Ht' & _ & _ & E & _). rewrite Ht in Ht'. apply Ok_inj in Ht'. subst t'.
    exists t. split; [exact Ht|]. split; [exact Hs|]. split; [rewrite E; apply b64_of_text|]. intros tail U. rewrite R by exact U. reflexivity.
  - intros (code & w & n & I & H). destruct (C14_round_trip_pf P code w n c I H) as (_ & t & b & Ht & _ & Hb & _ & E & _ & Hs & R & _).
    exists t. split; [exact Ht|]. split; [exact Hs|]. split; [rewrite E; apply b64_of_text|]. intros tail U. destruct (R tail U) as [-> _]. reflexivity.
  - intros (code & raw & s & index & ondex & I & B & N & D). destruct (C19_text_round_trip_pf P code raw s index ondex x I B N) as (t & Ht & _ & _ & Bt & Hs & _ & _ & _ & R).
    exists t. split; [exact Ht|]. split; [exact Hs|]. split; [exact Bt|]. intros tail U. destruct (R tail U) as [-> _]. rewrite (sig_lossless code raw s index ondex x) by auto. reflexivity.
Qed.
Lemma item_bin_ok i : proper i -> has_binary i -> exists t b, item_text i = Ok t /\ item_binary i = Ok b /\ t = b64_of b /\ bytes_ok b = true /\ len b mod 3 = 0 /\ len t * 3 / 4 = len b /\ item_size i = Ok (len t) /\
  forall tail, bytes_ok tail = true -> parse_item_binary (kind_of i) (b ++ tail) = Ok i.
Proof.
  assert (LB : forall b, len b mod 3 = 0 -> len (b64_of b) * 3 / 4 = len b) by (intros b H; unfold b64_of; rewrite len_b64_numeral; lia).
  destruct i as [m|c|x]; cbn [proper has_binary item_text item_binary item_size kind_of parse_item_binary].
  - intros K _. destruct (C04_self_framing_pf P m K) as (t & b & Ht & Hb & Hs & _ & _ & R). destruct (C03_composable_pf P m K) as (t' & b' & _ & _ & Ht' & Hb' & L3 & E & _). rewrite Ht in Ht'. rewrite Hb in Hb'. apply Ok_inj in Ht'. apply Ok_inj in Hb'. subst t' b'.
    exists t, b. do 2 (split; [assumption|]). split; [exact E|]. split. { destruct (constructed_wf m K) as [z W]. unfold matter_qb2 in Hb. rewrite (binfil_wf z) in Hb by auto. apply Ok_inj in Hb. subst b. apply bytes_ok_bin; auto. }
    split; [exact L3|]. split; [rewrite E; auto|]. split; [exact Hs|]. intros tail U. rewrite R by exact U. reflexivity.
  - intros (code & w & n & I & H) _. destruct (C14_round_trip_pf P code w n c I H) as (_ & t & b & Ht & _ & Hb & _ & E & L3 & Hs & _ & R).
    exists t, b. do 2 (split; [assumption|]). split; [exact E|]. split. { destruct (new_counter_wf _ _ _ _ I H) as [z [<- [Ec W]]]. destruct (c_binfil_wf _ _ W) as [Hb' _]. unfold counter_qb2 in Hb. rewrite Hb' in Hb. apply Ok_inj in Hb. subst b. apply bytes_ok_bcode. }
    split; [exact L3|]. split; [rewrite E; auto|]. split; [exact Hs|]. intros tail U. rewrite R by exact U. reflexivity.
  - intros (code & raw & s & index & ondex & I & B & N & D) O. destruct (C19_text_round_trip_pf P code raw s index ondex x I B N) as (t & Ht & _ & _ & Bt & Hs & Ec & _ & _ & _). rewrite Ec in O. specialize (O s I).
    destruct (C20_binary_round_trip_pf P code raw s index ondex x I B N O) as (b & Hb & Bb & _ & R). destruct (C21_composable_pf P code raw s index ondex x I B N) as (t' & Ht' & _ & Q). rewrite Ht in Ht'. apply Ok_inj in Ht'. subst t'. destruct (Q b Hb) as (E & L3 & _).
    exists t, b. do 2 (split; [assumption|]). split; [exact E|]. split; [exact Bb|]. split; [exact L3|]. split; [rewrite E; auto|]. split; [exact Hs|]. intros tail U. rewrite R by exact U. rewrite (sig_lossless code raw s index ondex x) by auto. reflexivity.
Qed.
Lemma stream_text is : Forall proper is -> exists ts, Forall2 (fun i t => item_text i = Ok t) is ts /\ b64_text (concat ts) /\
  forall tail, utf8_valid tail = true -> read_items (map kind_of is) (concat ts ++ tail) = Ok (is, tail).
Proof.
  induction 1 as [|i is Pi _ IH].
  - exists []. split; [constructor|]. split; [intros c []|]. intros tail U. reflexivity.
  - destruct IH as (ts & Fs & Bs & Rs). destruct (item_ok i Pi) as (t & Ht & Hs & Bt & R). exists (t :: ts). split; [constructor; auto|]. split; [intros c I; cbn [concat] in I; apply in_app_or in I as [I|I]; auto|].
    intros tail U. cbn [map concat read_items]. rewrite <- app_assoc. rewrite R by (apply b64_utf8; auto). cbn [obind]. rewrite Hs. cbn [obind]. rewrite drop_app_exact by reflexivity. rewrite Rs by exact U. reflexivity.
Qed.
Lemma stream_binary is : Forall proper is -> Forall has_binary is -> exists ts bs, Forall2 (fun i t => item_text i = Ok t) is ts /\ Forall2 (fun i b => item_binary i = Ok b) is bs /\
  concat ts = b64_of (concat bs) /\ bytes_ok (concat bs) = true /\ len (concat bs) mod 3 = 0 /\
  forall tail, bytes_ok tail = true -> read_items_binary (map kind_of is) (concat bs ++ tail) = Ok (is, tail).
Proof.
  induction 1 as [|i is Pi _ IH]; intros Hb.
  - exists [], []. repeat split; try constructor.
  - inversion Hb as [|? ? Bi Bis]; subst. destruct (IH Bis) as (ts & bs & F1 & F2 & E & B & L & R). destruct (item_bin_ok i Pi Bi) as (t & b & Ht & Hb' & Et & Bb & L3 & Lt & Hs & Ri). exists (t :: ts), (b :: bs).
    split; [constructor; auto|]. split; [constructor; auto|]. cbn [concat]. split; [rewrite b64_of_app by auto; rewrite <- Et, <- E; reflexivity|]. split; [rewrite bytes_ok_app, Bb, B; reflexivity|]. split; [rewrite len_app; lia|].
    intros tail U. cbn [map read_items_binary]. rewrite <- app_assoc. rewrite Ri by (rewrite bytes_ok_app, B, U; reflexivity). cbn [obind]. rewrite Hs. cbn [obind]. rewrite Lt. rewrite drop_app_exact by reflexivity. rewrite R by exact U. reflexivity.
Qed.
End S.

(** C64: any sequence of primitives, count codes and signatures, written one after
    the other and followed by any text, reads back item by item. *)
Lemma C64_text_pf : forall (P : Profile) (items : list item) (tail : bytes), Forall proper items -> utf8_valid tail = true ->
  exists texts, Forall2 (fun i t => item_text i = Ok t) items texts /\ read_items (map kind_of items) (concat texts ++ tail) = Ok (items, tail).
Proof. intros P items tail H U. destruct (stream_text items H) as (ts & A & _ & R). exists ts. auto. Qed.
(** C64: the same in binary; and converting the whole stream between the two domains is
    converting its items. *)
Lemma C64_binary_pf : forall (P : Profile) (items : list item) (tail : bytes), Forall proper items -> Forall has_binary items -> bytes_ok tail = true ->
  exists texts binaries, Forall2 (fun i t => item_text i = Ok t) items texts /\ Forall2 (fun i b => item_binary i = Ok b) items binaries /\
    concat texts = b64_of (concat binaries) /\ read_items_binary (map kind_of items) (concat binaries ++ tail) = Ok (items, tail).
Proof. intros P items tail H B U. destruct (stream_binary items H B) as (ts & bs & A & D & E & _ & _ & R). exists ts, bs. auto. Qed.

Lemma len_nat {A} (l : list A) : N.to_nat (len l) = length l.
Proof. unfold len. Lia.lia. Qed.
Lemma concat_kinds (ks : list kind) (gs : list (list item)) : (forall g, In g gs -> map kind_of g = ks) -> map kind_of (concat gs) = concat (repeat ks (length gs)).
Proof. induction gs as [|g gs IH]; intros H; [reflexivity|]. cbn [concat length repeat]. rewrite map_app, (H g) by (left; reflexivity). rewrite IH by (intros; apply H; right; auto). reflexivity. Qed.
(** C64: a count code followed by the groups it counts, each with items of the kinds
    [ks] (one signature; a key and a signature; ...) reads back as those, and what
    follows is left over. *)
Lemma C64_group_pf : forall (P : Profile) (code : bytes) (w : N) (ks : list kind) (groups : list (list item)) (tail : bytes),
  In (code, w) count_codes -> len groups < 64 ^ w -> (forall g, In g groups -> map kind_of g = ks /\ Forall proper g) -> utf8_valid tail = true ->
  exists t texts, counter_qb64 (Ctr code (len groups)) = Ok t /\ new_counter code (len groups) = Ok (Ctr code (len groups)) /\
    Forall2 (fun i t => item_text i = Ok t) (concat groups) texts /\
    read_group ks (t ++ concat texts ++ tail) = Ok (code, concat groups, tail).
Proof.
  intros P code w ks groups tail I L G U. destruct (C14_range_pf P code w (len groups) I) as [N0 _]. specialize (N0 L). destruct (C14_round_trip_pf P code w _ _ I N0) as (_ & t & b & Ht & _ & _ & _ & E & _ & Hs & R & _).
  assert (Pr : Forall proper (concat groups)). { apply Forall_forall. intros i Hi. apply in_concat in Hi as (g & Hg & Hi). destruct (G g Hg) as [_ Fg]. rewrite Forall_forall in Fg. auto. }
  destruct (stream_text (concat groups) Pr) as (ts & Fs & Bs & Rs). exists t, ts. split; [exact Ht|]. split; [exact N0|]. split; [exact Fs|].
  unfold read_group. destruct (R (concat ts ++ tail) (b64_utf8 _ _ Bs U)) as [-> _]. cbn [obind]. rewrite Hs. cbn [obind c_count c_code]. rewrite drop_app_exact by reflexivity. rewrite len_nat.
  rewrite <- concat_kinds by (intros g Hg; apply G; exact Hg). rewrite Rs by exact U. reflexivity.
Qed.
Lemma C64_group_binary_pf : forall (P : Profile) (code : bytes) (w : N) (ks : list kind) (groups : list (list item)) (tail : bytes),
  In (code, w) count_codes -> len groups < 64 ^ w -> (forall g, In g groups -> map kind_of g = ks /\ Forall proper g /\ Forall has_binary g) -> bytes_ok tail = true ->
  exists b binaries, counter_qb2 (Ctr code (len groups)) = Ok b /\ Forall2 (fun i b => item_binary i = Ok b) (concat groups) binaries /\
    read_group_binary ks (b ++ concat binaries ++ tail) = Ok (code, concat groups, tail).
Proof.
  intros P code w ks groups tail I L G U. destruct (C14_range_pf P code w (len groups) I) as [N0 _]. specialize (N0 L).
  assert (Pc : proper (I_count (Ctr code (len groups)))) by (exists code, w, (len groups); auto).
  assert (Pr : Forall proper (I_count (Ctr code (len groups)) :: concat groups)). { constructor; [exact Pc|]. apply Forall_forall. intros i Hi. apply in_concat in Hi as (g & Hg & Hi). destruct (G g Hg) as (_ & Fg & _). rewrite Forall_forall in Fg. auto. }
  assert (Hb : Forall has_binary (concat groups)). { apply Forall_forall. intros i Hi. apply in_concat in Hi as (g & Hg & Hi). destruct (G g Hg) as (_ & _ & Fg). rewrite Forall_forall in Fg. auto. }
  inversion Pr as [|? ? _ Prs]; subst. destruct (stream_binary (concat groups) Prs Hb) as (ts & bs & _ & Fs & _ & Bs & _ & Rs). destruct (item_bin_ok _ Pc Logic.I) as (t & b & _ & Hb' & Et & Bb & L3 & Lt & Hs & Ri). cbn [item_binary item_size kind_of parse_item_binary] in *.
  exists b, bs. split; [exact Hb'|]. split; [exact Fs|]. unfold read_group_binary. specialize (Ri (concat bs ++ tail)). rewrite bytes_ok_app, Bs, U in Ri. specialize (Ri eq_refl). destruct (counter_parse_binary (b ++ concat bs ++ tail)) as [c|e|]; cbn [obind] in Ri; try discriminate Ri. apply Ok_inj in Ri. injection Ri as ->.
  cbn [obind]. rewrite Hs. cbn [obind c_count c_code]. rewrite Lt. rewrite drop_app_exact by reflexivity. rewrite len_nat. rewrite <- concat_kinds by (intros g Hg; apply G; exact Hg). rewrite Rs by exact U. reflexivity.
Qed.
(** Two couples of a key and a signature, with their count, before other text. *)
Lemma C64_group_ex_pf : forall P : Profile,
  let g n := [I_matter (Mat (s2b "B") 0 (rep n 32)); I_sig (Idx (s2b "2A") (rep n 64) 70 3)] in
  (forall i, In i (g 7 ++ g 9) -> proper i /\ has_binary i) /\ map kind_of (g 7) = [K_matter; K_sig] /\
  match counter_qb64 (Ctr (s2b "-C") 2), item_text (nth 0 (g 7) (I_count (Ctr [] 0))), item_text (nth 1 (g 7) (I_count (Ctr [] 0))), item_text (nth 0 (g 9) (I_count (Ctr [] 0))), item_text (nth 1 (g 9) (I_count (Ctr [] 0))) with
  | Ok c, Ok k1, Ok s1, Ok k2, Ok s2 => c = s2b "-CAC" /\ len k1 = 44 /\ len s1 = 92 /\ read_group [K_matter; K_sig] (c ++ k1 ++ s1 ++ k2 ++ s2 ++ s2b "{}") = Ok (s2b "-C", g 7 ++ g 9, s2b "{}")
  | _, _, _, _, _ => False
  end.
Proof.
  intros P g. split; [|split; [reflexivity|vm_compute; repeat split; reflexivity]].
  assert (A : forall n, n = 7 \/ n = 9 -> proper (I_matter (Mat (s2b "B") 0 (rep n 32)))).
  { intros n H. exists (s2b "B"), (rep n 32). split; [left; vm_compute; tauto|]. destruct H as [-> | ->]; (split; [reflexivity|vm_compute; reflexivity]). }
  assert (B : forall n, n = 7 \/ n = 9 -> proper (I_sig (Idx (s2b "2A") (rep n 64) 70 3))).
  { intros n H. exists (s2b "2A"), (rep n 64), (Sig false 2 2 64 92), 70, (Some 3). split; [vm_compute; tauto|]. split; [destruct H as [-> | ->]; reflexivity|]. split; [destruct H as [-> | ->]; vm_compute; reflexivity|]. right; right. reflexivity. }
  assert (D : forall n, has_binary (I_sig (Idx (s2b "2A") (rep n 64) 70 3))).
  { intros n s I. left. vm_compute in I. repeat (destruct I as [I|I]; [try discriminate I; injection I as <-; reflexivity|]). contradiction. }
  intros i I. cbn in I. destruct I as [<-|[<-|[<-|[<-|[]]]]]; (split; [auto|]); first [exact Logic.I | apply D].
Qed.
