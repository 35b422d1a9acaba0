(** Lemmas for Serder and Creder: UTF-8, lengths of JSON texts. *)
From Verif Require Import Base Utf8 StdStr Data Json DataDefs Common CommonDefs Sadder SadderDefs.
From Verif Require Import BaseFacts B64Facts StdStrFacts DataFacts JsonFacts ImportFacts CommonFacts CommonFacts2 SaiderFacts.

(** ** UTF-8 *)
(** a character and the rest *)
Lemma utf8_ind (Q : bytes -> Prop) : Q [] -> (forall c r, c < 128 -> utf8_valid r = true -> Q r -> Q (c :: r)) ->
  (forall u r, u <> [] -> (forall c, In c u -> 128 <= c) -> (forall s, utf8_valid (u ++ s) = utf8_valid s) -> utf8_valid r = true -> Q r -> Q (u ++ r)) ->
  forall s, utf8_valid s = true -> Q s.
Proof.
  intros H0 H1 H2 s. remember (length s) as n eqn:En. revert s En. induction n as [n IH] using (well_founded_induction Wf_nat.lt_wf). intros s En V.
  destruct s as [|b0 r0]; [exact H0|]. cbn [length] in En. pose proof V as V0. cbn [utf8_valid] in V. destruct (N.ltb_spec b0 128) as [L|L].
  { apply H1; auto. apply (IH (length r0)); [Lia.lia|reflexivity|exact V]. }
  destruct r0 as [|b1 r1]; [discriminate|]. cbn [length] in En. destruct (rng 194 223 b0) eqn:R0.
  { apply andb_true_iff in V as [R1 V]. apply (H2 [b0; b1]); [discriminate| | |exact V|apply (IH (length r1)); [Lia.lia|reflexivity|exact V]].
    - unfold rng in *. intros c [<-|[<-|[]]]; lia.
    - intros s. cbn [app utf8_valid]. replace (b0 <? 128) with false by lia. rewrite R0, R1. reflexivity. }
  destruct r1 as [|b2 r2]; [discriminate|]. cbn [length] in En. destruct (rng 224 239 b0) eqn:R3.
  { apply andb_true_iff in V as [R1 V]. apply (H2 [b0; b1; b2]); [discriminate| | |exact V|apply (IH (length r2)); [Lia.lia|reflexivity|exact V]].
    - apply andb_true_iff in R1 as [R1 R2]. unfold rng in *. intros c [<-|[<-|[<-|[]]]]; [lia| |lia]. destruct (b0 =? 224); [lia|]. destruct (b0 =? 237); lia.
    - intros s. cbn [app utf8_valid]. replace (b0 <? 128) with false by lia. rewrite R0, R3. rewrite R1. reflexivity. }
  destruct r2 as [|b3 r3]; [discriminate|]. cbn [length] in En. apply andb_true_iff in V as [R1 V]. apply (H2 [b0; b1; b2; b3]); [discriminate| | |exact V|apply (IH (length r3)); [Lia.lia|reflexivity|exact V]].
  - apply andb_true_iff in R1 as [R1 R4]. apply andb_true_iff in R1 as [R1 R2]. apply andb_true_iff in R1 as [R1 R5]. unfold rng in *. intros c [<-|[<-|[<-|[<-|[]]]]]; [lia| |lia|lia]. destruct (b0 =? 240); [lia|]. destruct (b0 =? 244); lia.
  - intros s. cbn [app utf8_valid]. replace (b0 <? 128) with false by lia. rewrite R0, R3, R1. reflexivity.
Qed.
Lemma utf8_app a b : utf8_valid a = true -> utf8_valid (a ++ b) = utf8_valid b.
Proof.
  intros V. revert a V. apply utf8_ind; [reflexivity| |].
  - intros c r L _ IH. cbn [app utf8_valid]. replace (c <? 128) with true by lia. exact IH.
  - intros u r _ _ E _ IH. rewrite <- app_assoc, E. exact IH.
Qed.
Lemma utf8_ascii_list l : (forall c, In c l -> c < 128) -> utf8_valid l = true.
Proof. induction l as [|c l IH]; intros H; [reflexivity|]. cbn [utf8_valid]. pose proof (H c (or_introl eq_refl)). replace (c <? 128) with true by lia. apply IH. intros; apply H; right; auto. Qed.
Lemma escape_ascii c : c < 128 -> forall x, In x (escape_char c) -> x < 128.
Proof.
  intros L x. unfold escape_char.
  repeat match goal with |- In x (if ?b then _ else _) -> _ => destruct b eqn:?; [intros [<-|[<-|[]]]; lia|] end.
  destruct (c <? 32) eqn:E; [|intros [<-|[]]; lia]. intros I.
  apply in_app_or in I as [I|[<-|[<-|[]]]]; [apply N.ltb_lt; exact (proj1 (forallb_forall (fun c => c <? 128) (s2b "\u00")) eq_refl x I)| |]; unfold hex_nibble, digit_char; assert (c / 16 < 2) by (apply N.div_lt_upper_bound; lia); pose proof (N.mod_lt c 16 ltac:(lia)); destruct (_ <? 10) eqn:E10; lia.
Qed.
Lemma utf8_json_string s : utf8_valid s = true -> utf8_valid (json_string s) = true.
Proof.
  intros V. unfold json_string. cbn [app utf8_valid]. change (34 <? 128) with true. cbv iota. revert s V. apply utf8_ind; [reflexivity| |].
  - intros c r L _ IH. cbn [flat_map]. rewrite <- app_assoc, utf8_app by (apply utf8_ascii_list; apply escape_ascii; exact L). exact IH.
  - intros u r _ U E _ IH. assert (Eu : flat_map escape_char u = u).
    { clear - U. induction u as [|c u IH]; [reflexivity|]. cbn [flat_map]. rewrite IH by (intros; apply U; right; auto). pose proof (U c (or_introl eq_refl)). unfold escape_char.
      replace (c =? 34) with false by lia. replace (c =? 92) with false by lia. replace (c =? 8) with false by lia. replace (c =? 9) with false by lia. replace (c =? 10) with false by lia. replace (c =? 12) with false by lia. replace (c =? 13) with false by lia. replace (c <? 32) with false by lia. reflexivity. }
    rewrite flat_map_app, Eu, <- app_assoc, E. exact IH.
Qed.
Lemma utf8_join sep ps : utf8_valid sep = true -> (forall p, In p ps -> utf8_valid p = true) -> utf8_valid (join sep ps) = true.
Proof.
  intros Vs. induction ps as [|p ps IH]; intros H; [reflexivity|]. destruct ps as [|q ps].
  - cbn [join]. apply H. left. reflexivity.
  - rewrite join_cons by discriminate. rewrite utf8_app by (apply H; left; reflexivity). rewrite utf8_app by exact Vs. apply IH. intros; apply H; right; auto.
Qed.
Lemma show_int_ascii i c : In c (show_int i) -> c < 128.
Proof.
  assert (D : forall n, In c (to_dec n) -> c < 128).
  { intros n I. pose proof (to_dec_int_part n) as [_ [D _]]. apply D in I. unfold digit in I. lia. }
  unfold show_int. destruct (i <? 0)%Z; [intros [<-|I]; [lia|]|intros I]; eapply D; eauto.
Qed.
Lemma float_text_ascii t c : float_text t -> In c t -> c < 128.
Proof.
  intros [s [d [fr [ex [-> [Hs [[_ [Hd _]] [Hf [He _]]]]]]]]] I. unfold digit in *.
  apply in_app_or in I as [I|I]. { destruct Hs as [-> | ->]; cbn in I; [destruct I|lia]. }
  apply in_app_or in I as [I|I]. { apply Hd in I. lia. }
  apply in_app_or in I as [I|I].
  - destruct Hf as [-> |[f [-> [_ Hf]]]]; [destruct I|]. destruct I as [<-|I]; [lia|]. apply Hf in I. lia.
  - destruct He as [-> |[e [sg [x [-> [E1 [E2 [_ Hx]]]]]]]]; [destruct I|]. destruct I as [<-|I]; [lia|]. apply in_app_or in I as [I|I]; [destruct E2 as [-> |[-> | ->]]; cbn in I; [destruct I|lia|lia]|apply Hx in I; lia].
Qed.
Lemma utf8_json (fl : bytes -> Prop) v : (forall t, fl t -> float_text t) -> good fl v -> texts v -> utf8_valid (to_json v) = true.
Proof.
  intros Hf. induction v as [|b|i|t|s|a IHa|o IHo] using value_ind'; intros G T; inversion G; inversion T; subst.
  - reflexivity.
  - destruct b; reflexivity.
  - apply utf8_ascii_list, show_int_ascii.
  - apply utf8_ascii_list. intros c. apply float_text_ascii. auto.
  - apply utf8_json_string. auto.
  - cbn [to_json]. rewrite utf8_app by reflexivity. rewrite utf8_app; [reflexivity|]. apply utf8_join; [reflexivity|]. intros p I. apply in_map_iff in I as [v [<- I]]. rewrite Forall_forall in IHa. auto.
  - cbn [to_json]. rewrite utf8_app by reflexivity. rewrite utf8_app; [reflexivity|]. apply utf8_join; [reflexivity|]. intros p I. apply in_map_iff in I as [[k v] [<- I]]. cbn [fst snd].
    match goal with X : forall k v, In (k, v) o -> utf8_valid k = true /\ texts v |- _ => destruct (X k v I) as [Uk Tv] end.
    rewrite utf8_app by (apply utf8_json_string; exact Uk). cbn [app utf8_valid]. change (58 <? 128) with true. cbv iota. rewrite Forall_forall in IHo. apply (IHo (k, v) I); [|exact Tv]. eauto.
Qed.

(** ** lengths *)
Lemma member_len (o : list (bytes * data)) e : In e o -> len (member e) <= len (to_json (VObj o)).
Proof.
  rewrite to_json_obj. rewrite !len_app. intros I. assert (H : len (member e) <= len (join [44] (map member o))); [|lia].
  induction o as [|f o IH]; [destruct I|]. cbn [map]. destruct o as [|g o]. { destruct I as [<-|[]]. cbn [map join]. lia. }
  cbn [map] in *. rewrite join_cons by discriminate. rewrite !len_app. destruct I as [<-|I]; [lia|]. specialize (IH I). lia.
Qed.
Lemma escape_len t : len t <= len (flat_map escape_char t).
Proof.
  induction t as [|c t IH]; [rewrite !len_nil; lia|]. cbn [flat_map]. rewrite len_app, len_cons. assert (1 <= len (escape_char c)); [|lia].
  unfold escape_char. repeat (destruct (_ =? _); [vm_compute; discriminate|]). destruct (_ <? _); [rewrite len_app, !len_cons|rewrite len_cons]; lia.
Qed.
Lemma string_in_obj o k t : map_get k o = Some (VStr t) -> len t <= len (to_json (VObj o)).
Proof.
  intros G. apply map_get_In in G. apply member_len in G. etransitivity; [|exact G]. unfold member. cbn [fst snd to_json]. unfold json_string. rewrite !len_app. pose proof (escape_len t). lia.
Qed.
