(** Property C75: the JSON text of a value is the shortest one that reads as it. *)
From Verif Require Import Base StdStr Data Json Spec PrimsDefs DataDefs GrammarDefs PrintDefs.
From Verif Require Import BaseFacts UtilFacts StdStrFacts SpecFacts DataFacts JsonFacts ImportFacts DataThms GrammarFacts GrammarThms TholderFacts5.
From Coq Require Import ListDec.

(** the text printed for a document; nothing for floats *)
Fixpoint jprint (j : json) : bytes :=
  match j with
  | JNull => s2b "null"
  | JBool b => if b then s2b "true" else s2b "false"
  | JNum (JPos n) => to_dec n
  | JNum (JNeg z) => show_int z
  | JNum (JFlt _) => []
  | JStr s => json_string s
  | JArr a => [91] ++ join [44] (map jprint a) ++ [93]
  | JObj o => [123] ++ join [44] (map (fun e => json_string (fst e) ++ [58] ++ jprint (snd e)) o) ++ [125]
  end.
Definition entry (e : bytes * json) : bytes := json_string (fst e) ++ [58] ++ jprint (snd e).
(** at most as long, and the same but for letter case if as long *)
Definition upto (p t : bytes) : Prop := len p <= len t /\ (len t = len p -> map lower t = map lower p).
Lemma upto_refl t : upto t t. Proof. split; auto. lia. Qed.
Lemma upto_app p t q u : upto p t -> upto q u -> upto (p ++ q) (t ++ u).
Proof. intros [L1 E1] [L2 E2]. split; rewrite !len_app; [lia|]. intros L. rewrite !map_app, E1, E2 by lia. reflexivity. Qed.
Lemma upto_pad_l w p t : upto p t -> upto p (w ++ t).
Proof. intros U. change p with ([] ++ p). apply upto_app; [|exact U]. split; [apply N.le_0_l|]. intros L. destruct w; [reflexivity|rewrite len_cons in L; change (len (@nil N)) with 0 in L; lia]. Qed.
Lemma upto_pad_r w p t : upto p t -> upto p (t ++ w).
Proof. intros U. rewrite <- (app_nil_r p). apply upto_app; [exact U|]. split; [apply N.le_0_l|]. intros L. destruct w; [reflexivity|rewrite len_cons in L; change (len (@nil N)) with 0 in L; lia]. Qed.
Lemma upto_lt p t : len p < len t -> upto p t. Proof. split; lia. Qed.

Lemma esc_ge c : len (escape_char c) <= 6.
Proof. unfold escape_char. repeat (match goal with |- context [if ?b then _ else _] => destruct b end); try (vm_compute; discriminate); rewrite len_app; change (len (s2b "\u00")) with 4; rewrite !len_cons, len_nil; Lia.lia. Qed.
Lemma esc_plain c : 32 <= c -> c <> 34 -> c <> 92 -> escape_char c = [c].
Proof. intros. unfold escape_char. replace (c =? 34) with false by lia. replace (c =? 92) with false by lia. replace (c =? 8) with false by lia. replace (c =? 9) with false by lia. replace (c =? 10) with false by lia. replace (c =? 12) with false by lia. replace (c =? 13) with false by lia. replace (c <? 32) with false by lia. reflexivity. Qed.
Lemma hex_case c d : hex_digit c d -> lower c = digit_char d.
Proof. intros H. unfold hex_digit in H. unfold lower, digit_char. repeat (match goal with |- context [if ?b then _ else _] => destruct b eqn:? end); lia. Qed.
Lemma esc_code h n : length h = 4%nat -> hex_numeral h n -> n < 128 -> upto (escape_char n) ([92; 117] ++ h).
Proof.
  intros L (ds & F & ->) Hn. destruct h as [|a [|b [|c [|e [|]]]]]; try discriminate L. inversion F as [|? x1 ? l1 H1 F1]; subst. inversion F1 as [|? x2 ? l2 H2 F2]; subst. inversion F2 as [|? x3 ? l3 H3 F3]; subst. inversion F3 as [|? x4 ? l4 H4 F4]; subst. inversion F4; subst.
  assert (D : forall c d, hex_digit c d -> d < 16) by (clear; unfold hex_digit; lia). pose proof (D _ _ H1). pose proof (D _ _ H2). pose proof (D _ _ H3). pose proof (D _ _ H4).
  assert (Ev : value 16 [x1; x2; x3; x4] = ((x1 * 16 + x2) * 16 + x3) * 16 + x4) by (unfold value; cbn; lia). rewrite Ev in *.
  assert (x1 = 0) by lia. assert (x2 = 0) by lia. subst x1 x2. set (m := ((0 * 16 + 0) * 16 + x3) * 16 + x4) in *. assert (Em : m = x3 * 16 + x4) by (unfold m; lia).
  unfold escape_char. repeat (match goal with |- upto (if ?b then _ else _) _ => destruct b eqn:?; [try (apply upto_lt; cbn; reflexivity)|] end); [|apply upto_lt; reflexivity].
  split; [reflexivity|]. intros _. rewrite Em. unfold hex_nibble. replace ((x3 * 16 + x4) / 16) with x3 by lia. replace ((x3 * 16 + x4) mod 16) with x4 by lia.
  assert (Ld : forall d, d < 16 -> lower (digit_char d) = digit_char d). { clear. intros d Hd. unfold lower, digit_char. repeat (match goal with |- context [if ?b then _ else _] => destruct b eqn:? end); lia. }
  cbn [app map]. rewrite (hex_case _ _ H1), (hex_case _ _ H2), (hex_case _ _ H3), (hex_case _ _ H4). change (s2b "\u00") with [92; 117; 48; 48]. cbn [app map]. rewrite !Ld by lia. reflexivity.
Qed.
Lemma esc_utf8 h n u : length h = 4%nat -> hex_numeral h n -> utf8_char n u -> upto (flat_map escape_char u) ([92; 117] ++ h).
Proof.
  intros L Hh H. inversion H; subst; cbn [flat_map]; repeat rewrite (esc_plain (_ + _)) by lia; [rewrite app_nil_r; apply esc_code; auto|..]; destruct h as [|a' [|b' [|c' [|e' [|]]]]]; try discriminate L; apply upto_lt; cbn [app]; rewrite ?len_cons, len_nil; Lia.lia.
Qed.
Lemma esc_long u n : utf8_char n u -> len (flat_map escape_char u) <= 6.
Proof.
  intros H. inversion H; subst; cbn [flat_map]; repeat rewrite (esc_plain (_ + _)) by lia; [rewrite app_nil_r; apply esc_ge|cbn [app]; rewrite ?len_cons, len_nil; Lia.lia..].
Qed.
Lemma jbody_short b s : jbody b s -> upto (flat_map escape_char s) b.
Proof.
  induction 1 as [|c b s H1 H2 H3 _ IH|e c b s I _ IH|h n u b s L Hh _ U _ IH|h1 h2 n m u b s L1 L2 _ _ _ _ U _ IH]; cbn [flat_map].
  - apply upto_refl.
  - rewrite esc_plain by assumption. apply (upto_app [c] [c]); [apply upto_refl|exact IH].
  - apply upto_app; [|exact IH]. unfold short_escapes in I. cbn [In] in I. repeat (destruct I as [I|I]; [injection I as <- <-; split; [vm_compute; discriminate|vm_compute; intros X; first [reflexivity|discriminate X]]|]). destruct I.
  - rewrite flat_map_app, (app_assoc [92; 117]). apply upto_app; [|exact IH]. eapply esc_utf8; eauto.
  - rewrite flat_map_app. replace ([92; 117] ++ h1 ++ [92; 117] ++ h2 ++ b) with (([92; 117] ++ h1 ++ [92; 117] ++ h2) ++ b) by (rewrite <- !app_assoc; reflexivity). apply upto_app; [|exact IH]. apply upto_lt. apply esc_long in U. rewrite !len_app. change (len [92; 117]) with 2. assert (len h1 = 4) by (unfold len; lia). assert (len h2 = 4) by (unfold len; lia). lia.
Qed.
Lemma jstring_short t s : jstring t s -> upto (json_string s) t.
Proof. intros (b & -> & H). apply jbody_short in H. unfold json_string. apply upto_app; [apply upto_refl|]. apply upto_app; [exact H|apply upto_refl]. Qed.
Lemma decimal_unique d n : decimal d n -> d = to_dec n.
Proof.
  intros H. pose proof H as H'. apply decimal_val in H' as [I V]. destruct H as [(Ne & Hd & H0) E].
  destruct (to_radix_spec 10 n) as [ds [Er [Fd [Vd [Nd [Hnz Hz]]]]]]; try lia. unfold to_dec. rewrite Er.
  set (es := map (fun c => c - 48) d) in *. rewrite value_val in E.
  assert (Fe : Forall (fun x => x < 10) es). { apply Forall_forall. intros x Hx. apply in_map_iff in Hx as (c & <- & Hc). apply Hd in Hc. unfold digit in Hc. lia. }
  assert (Ed : d = map digit_char es). { unfold es. rewrite map_map. rewrite <- (map_id d) at 1. apply map_ext_in. intros c Hc. apply Hd in Hc. unfold digit in Hc. unfold digit_char. replace (c - 48 <? 10) with true by lia. lia. }
  rewrite Ed. f_equal. destruct (N.eq_dec n 0) as [Z|Z].
  - rewrite (Hz Z). rewrite Z in E. destruct d as [|c r]; [congruence|]. assert (c = 48). { unfold es in E. cbn [map] in E. rewrite val_cons in E. pose proof (Hd c (or_introl eq_refl)) as Hc. unfold digit in Hc. assert (0 < 10 ^ len (map (fun c => c - 48) r)) by (apply N.neq_0_lt_0, N.pow_nonzero; lia). assert (M : (c - 48) * 10 ^ len (map (fun c => c - 48) r) = 0) by (symmetry in E; apply N.eq_add_0 in E; tauto). apply N.mul_eq_0 in M as [M|M]; clear - M H Hc; lia. }
    subst c. unfold es. rewrite (H0 r eq_refl). reflexivity.
  - destruct (Hnz Z) as (h & t & -> & Hh). destruct d as [|c r]; [congruence|]. assert (Hc : c - 48 <> 0). { intros C. pose proof (Hd c (or_introl eq_refl)) as Hc. unfold digit in Hc. assert (c = 48) by lia. subst c. pose proof (H0 r eq_refl). subst r. cbn in E. lia. }
    change es with ((c - 48) :: map (fun c => c - 48) r) in *. set (q := map (fun c => c - 48) r) in *.
    assert (L : len t = len q).
    { assert (B : forall x l, x <> 0 -> Forall (fun d => d < 10) (x :: l) -> val 10 (x :: l) = n -> 10 ^ len l <= n < 10 ^ (len l + 1)).
      { clear. intros x l Nx Fx <-. split; [rewrite val_cons; assert (1 * 10 ^ len l <= x * 10 ^ len l) by (apply N.mul_le_mono_r; lia); lia|]. rewrite <- (len_cons x l) || replace (len l + 1) with (len (x :: l)) by (rewrite len_cons; lia). apply val_lt; [lia|exact Fx]. }
      pose proof (B h t Hh Fd Vd) as [A1 A2]. pose proof (B (c - 48) q Hc Fe (eq_sym E)) as [B1 B2].
      assert (10 ^ len t < 10 ^ (len q + 1)) by lia. assert (10 ^ len q < 10 ^ (len t + 1)) by lia. apply N.pow_lt_mono_r_iff in H; [|lia]. apply N.pow_lt_mono_r_iff in H1; [|lia]. lia. }
    apply (val_inj 10); [lia|exact Fe|exact Fd|rewrite !len_cons, L; reflexivity|congruence].
Qed.

Lemma sum_incl {A} (f : A -> N) (o : list A) : NoDup o -> forall l, incl o l -> fold_right (fun x s => f x + s) 0 o <= fold_right (fun x s => f x + s) 0 l.
Proof.
  induction 1 as [|x o Nx _ IH]; intros l I; [cbn; lia|]. destruct (in_split x l (I x (or_introl eq_refl))) as (a & b & ->).
  assert (J : incl o (a ++ b)). { intros y Hy. specialize (I y (or_intror Hy)). apply in_app_iff in I as [I|[<-|I]]; [apply in_app_iff; auto|contradiction|apply in_app_iff; auto]. }
  specialize (IH _ J). cbn [fold_right]. revert IH. rewrite !fold_right_app. cbn [fold_right].
  assert (G : forall a s, fold_right (fun x s => f x + s) s a = fold_right (fun x s => f x + s) 0 a + s). { clear. induction a as [|y a IH]; intros s; cbn [fold_right]; [lia|]. rewrite IH. lia. }
  rewrite (G a (f x + _)), (G a (fold_right _ 0 b)). lia.
Qed.
Lemma firsts_in l : forall k, In k (firsts l) -> In k l.
Proof. induction l as [|x l IH]; intros k; cbn [firsts]; [auto|]. intros [<-|I]; [left; auto|]. apply filter_In in I as [I _]. right. auto. Qed.
Lemma firsts_nodup l : NoDup (firsts l).
Proof.
  induction l as [|x l IH]; cbn [firsts]; constructor.
  - intros I. apply filter_In in I as [_ E]. rewrite bytes_eqb_refl in E. discriminate E.
  - apply NoDup_filter. exact IH.
Qed.
Lemma last_wins_sum (f : bytes * json -> N) l o : last_wins l o -> fold_right (fun x s => f x + s) 0 o <= fold_right (fun x s => f x + s) 0 l.
Proof.
  intros [K V]. apply sum_incl.
  - assert (N1 : NoDup (map fst o)) by (rewrite K; apply firsts_nodup). clear - N1. induction o as [|[k j] o IH]; constructor; inversion N1; subst; auto. intros I. apply H1. apply in_map_iff. exists (k, j). auto.
  - intros [k j] I. apply V in I as (b & a & -> & _). apply in_app_iff. right. left. reflexivity.
Qed.

Lemma last_occ (k : bytes) (b : list (bytes * json)) : In k (map fst b) -> exists b1 j b2, b = b1 ++ (k, j) :: b2 /\ ~ In k (map fst b2).
Proof.
  induction b as [|[k' j'] b IH]; cbn [map fst In]; [tauto|]. intros I. destruct (in_dec (list_eq_dec N.eq_dec) k (map fst b)) as [J|J].
  - destruct (IH J) as (b1 & j & b2 & -> & H). exists ((k', j') :: b1), j, b2. auto.
  - destruct I as [<-|I]; [|contradiction]. exists [], j', b. auto.
Qed.
Lemma nodup_key {V} (o : list (bytes * V)) k x y : NoDup (map fst o) -> In (k, x) o -> In (k, y) o -> x = y.
Proof.
  induction o as [|[k' v'] o IH]; cbn [map fst In]; intros Nd; [tauto|]. inversion Nd; subst. intros [A|A] [B|B].
  - congruence.
  - injection A as -> ->. exfalso. apply H1. apply in_map_iff. exists (k, y). auto.
  - injection B as -> ->. exfalso. apply H1. apply in_map_iff. exists (k, x). auto.
  - auto.
Qed.
Lemma firsts_id l : NoDup l -> firsts l = l.
Proof.
  induction 1 as [|x l Nx _ IH]; cbn [firsts]; [reflexivity|]. rewrite IH. f_equal. apply forallb_filter_id || idtac.
  clear IH. induction l as [|y l IH]; cbn [filter]; [reflexivity|]. destruct (bytes_eqb x y) eqn:E; [apply bytes_eqb_eq in E; subst; exfalso; apply Nx; left; auto|]. cbn [negb]. f_equal. apply IH. intros I. apply Nx. right; auto.
Qed.
Lemma same_keys_list {V} (o l : list (bytes * V)) : NoDup (map fst l) -> map fst o = map fst l -> incl o l -> o = l.
Proof.
  revert l. induction o as [|[k v] o IH]; intros [|[k' v'] l] Nd E I; try discriminate E; [reflexivity|]. cbn [map fst] in E. injection E as -> E. inversion Nd; subst.
  assert (v = v'). { destruct (I (k', v) (or_introl eq_refl)) as [A|A]; [congruence|]. exfalso. apply H1. apply in_map_iff. exists (k', v). auto. } subst v'. f_equal. apply IH; auto.
  intros [k v''] J. destruct (I (k, v'') (or_intror J)) as [A|A]; [|exact A]. injection A as -> ->. exfalso. apply H1. rewrite <- E. apply in_map_iff. exists (k, v''). auto.
Qed.
Lemma last_wins_cases (f : bytes * json -> N) l o : (forall e, 0 < f e) -> last_wins l o -> o = l \/ fold_right (fun x s => f x + s) 0 o < fold_right (fun x s => f x + s) 0 l.
Proof.
  intros Pos W. pose proof W as [K V]. assert (No : NoDup (map fst o)) by (rewrite K; apply firsts_nodup).
  assert (Io : incl o l) by (intros [k j] I; apply V in I as (b & a & -> & _); apply in_app_iff; right; left; reflexivity).
  assert (NoDup o). { clear - No. induction o as [|[k j] o IH]; constructor; inversion No; subst; auto. intros I. apply H1. apply in_map_iff. exists (k, j). auto. }
  destruct (NoDup_dec (list_eq_dec N.eq_dec) (map fst l)) as [Nd|Nd]; [left; apply same_keys_list; auto; rewrite K; apply firsts_id; exact Nd|right].
  assert (X : exists a k j b, l = a ++ (k, j) :: b /\ In k (map fst b)).
  { clear - Nd. induction l as [|[k j] l IH]; [exfalso; apply Nd; constructor|]. destruct (in_dec (list_eq_dec N.eq_dec) k (map fst l)) as [I|I]; [exists [], k, j, l; auto|]. destruct IH as (a & k' & j' & b & -> & H); [intros H; apply Nd; constructor; auto|]. exists ((k, j) :: a), k', j', b. auto. }
  destruct X as (a & k & j & b & -> & Ib). destruct (last_occ k b Ib) as (b1 & j2 & b2 & -> & Nb).
  assert (I2 : In (k, j2) o) by (apply V; exists (a ++ (k, j) :: b1), b2; split; [rewrite <- app_assoc; reflexivity|exact Nb]).
  assert (J : incl o (a ++ b1 ++ (k, j2) :: b2)).
  { intros [k' j'] I. destruct (list_eq_dec N.eq_dec k' k) as [->|Nk].
    - rewrite (nodup_key o k j' j2 No I I2). apply in_app_iff. right. apply in_app_iff. right. left. reflexivity.
    - specialize (Io _ I). apply in_app_iff in Io as [Io|[Io|Io]]; [apply in_app_iff; auto|injection Io as -> ->; contradiction|apply in_app_iff; auto]. }
  pose proof (sum_incl f o H _ J) as L. rewrite fold_right_app in *. cbn [fold_right]. set (z := fold_right _ 0 (b1 ++ _)) in *. pose proof (Pos (k, j)) as Pk.
  assert (G : forall a s, fold_right (fun x s => f x + s) s a = fold_right (fun x s => f x + s) 0 a + s). { clear. induction a as [|y a IH]; intros s; cbn [fold_right]; [lia|]. rewrite IH. lia. }
  rewrite (G a z) in L. rewrite (G a (f (k, j) + z)). lia.
Qed.

Lemma entries_sum l : l <> [] -> len (join [44] (map entry l)) + 1 = fold_right (fun e s => len (entry e) + 1 + s) 0 l.
Proof. intros Ne. rewrite (len_join_eq 44) by (destruct l; [congruence|discriminate]). clear. induction l as [|e l IH]; cbn [map fold_right]; [reflexivity|]. rewrite IH. reflexivity. Qed.
Lemma grammar_short (F : Floats) :
  (forall d t j, jvalue d t j -> upto (jprint j) t) /\
  (forall d t a, jelems d t a -> a <> [] /\ upto (join [44] (map jprint a)) t) /\
  (forall d t l, jmembers d t l -> l <> [] /\ upto (join [44] (map entry l)) t).
Proof.
  apply (jgrammar_ind F (fun _ t j => upto (jprint j) t) (fun _ t a => a <> [] /\ upto (join [44] (map jprint a)) t) (fun _ t l => l <> [] /\ upto (join [44] (map entry l)) t)).
  - intros d. apply upto_refl.
  - intros d. apply upto_refl.
  - intros d. apply upto_refl.
  - intros d t n H. assert (Nt : 0 < len t).
    { assert (Df : forall d' n', decimal d' n' -> 0 < len d') by (intros d' n' [[Ne _] _]; destruct d'; [congruence|rewrite len_cons; lia]). inversion H as [d' n' D Hn|d' n' D Hn|t' u' Ft|d' n' u' D|d' n' u' D]; subst; try rewrite len_cons; try (apply Df in D; lia).
      destruct Ft as (sg & d' & fr & ex & -> & _ & [Ne _] & _). rewrite !len_app. destruct d'; [congruence|rewrite len_cons; lia]. }
    inversion H as [d' n' D Hn|d' n' D Hn| | |]; subst; cbn [jprint]; [rewrite (decimal_unique _ _ D); apply upto_refl| |apply upto_lt; exact Nt..].
    unfold show_int. replace (- Z.of_N n' <? 0)%Z with true by (symmetry; apply Z.ltb_lt; lia). rewrite Z.opp_involutive, N2Z.id, (decimal_unique _ _ D). apply upto_refl.
  - intros d t s H. cbn [jprint]. apply jstring_short. exact H.
  - intros d w _. cbn [jprint map join]. apply upto_app; [apply upto_refl|]. apply upto_pad_l. apply upto_refl.
  - intros d t a _ [_ IH]. cbn [jprint]. apply upto_app; [apply upto_refl|]. apply upto_app; [exact IH|apply upto_refl].
  - intros d w _. cbn [jprint map join]. apply upto_app; [apply upto_refl|]. apply upto_pad_l. apply upto_refl.
  - intros d t l o _ [Nl IH] W. cbn [jprint]. change (fun e : bytes * json => json_string (fst e) ++ [58] ++ jprint (snd e)) with entry. apply upto_app; [apply upto_refl|]. apply upto_app; [|apply upto_refl].
    destruct (last_wins_cases (fun e => len (entry e) + 1) l o ltac:(intros e; generalize (len (entry e)); intros; Lia.lia) W) as [->|Lt]; [exact IH|]. assert (No : o <> []). { intros ->. destruct W as [K _]. destruct l as [|[k j] l]; [congruence|discriminate K]. }
    apply upto_lt. pose proof (entries_sum l Nl). pose proof (entries_sum o No). destruct IH as [IH _]. cbv beta in Lt. rewrite <- H, <- H0 in Lt. apply N.add_lt_mono_r in Lt. eapply N.lt_le_trans; eassumption.
  - intros d w1 t w2 j _ _ IH _. split; [discriminate|]. cbn [map join]. apply upto_pad_l, upto_pad_r. exact IH.
  - intros d w1 t w2 j u a _ _ IH _ _ [Ne IHu]. split; [discriminate|]. destruct a as [|j2 a]; [congruence|]. change (join [44] (map jprint (j :: j2 :: a))) with (jprint j ++ [44] ++ join [44] (map jprint (j2 :: a))).
    apply upto_pad_l. apply upto_app; [exact IH|]. apply upto_pad_l. apply upto_app; [apply upto_refl|exact IHu].
  - intros d w1 q k w2 w3 t w4 j _ Q _ _ _ IH _. apply jstring_short in Q. split; [discriminate|]. cbn [map join]. unfold entry. cbn [fst snd]. apply upto_pad_l. apply upto_app; [exact Q|]. apply upto_pad_l. apply upto_app; [apply upto_refl|]. apply upto_pad_l, upto_pad_r. exact IH.
  - intros d w1 q k w2 w3 t w4 j u l _ Q _ _ _ IH _ _ [Ne IHu]. apply jstring_short in Q. split; [discriminate|]. destruct l as [|e2 l]; [congruence|]. change (join [44] (map entry ((k, j) :: e2 :: l))) with ((json_string k ++ [58] ++ jprint j) ++ [44] ++ join [44] (map entry (e2 :: l))). rewrite <- !app_assoc.
    apply upto_pad_l. apply upto_app; [exact Q|]. apply upto_pad_l. apply upto_app; [apply upto_refl|]. apply upto_pad_l. apply upto_app; [exact IH|]. apply upto_pad_l. apply upto_app; [apply upto_refl|exact IHu].
Qed.

Lemma same_print (fl : bytes -> Prop) : (forall t, ~ fl t) -> forall j v, same j v -> good fl v -> jprint j = to_json v.
Proof.
  intros No. induction j as [|b|n|s|a IH|o IH] using json_ind'; intros v Sm G; inversion Sm; subst; cbn [jprint to_json].
  - reflexivity.
  - destruct b; reflexivity.
  - unfold show_int. replace (Z.of_N n0 <? 0)%Z with false by (symmetry; apply Z.ltb_ge; lia). rewrite N2Z.id. reflexivity.
  - reflexivity.
  - inversion G; subst. exfalso. eapply No; eauto.
  - reflexivity.
  - assert (E : map jprint a = map to_json b). { assert (G' : forall v, In v b -> good fl v) by (inversion G; auto). clear - IH H0 G'. induction H0 as [|j v a b Hj Ha IHa]; [reflexivity|]. cbn [map]. inversion IH; subst. rewrite (H1 v Hj) by (apply G'; left; auto). rewrite IHa; [reflexivity|assumption|intros; apply G'; right; auto]. }
    rewrite E. reflexivity.
  - assert (E : map (fun e => json_string (fst e) ++ [58] ++ jprint (snd e)) o = map (fun kv => json_string (fst kv) ++ [58] ++ to_json (snd kv)) p).
    { assert (G' : forall k v, In (k, v) p -> good fl v) by (inversion G; auto). clear - IH H0 G'. induction H0 as [|j v a b [Hk Hj] Ha IHa]; [reflexivity|]. cbn [map]. inversion IH; subst. rewrite (H1 (snd v) Hj) by (apply (G' (fst v)); left; destruct v; auto). rewrite IHa; [|assumption|intros; eapply G'; right; eauto]. rewrite Hk. reflexivity. }
    rewrite E. reflexivity.
Qed.

(** C75: no JSON text that is read as the value, whatever its layout, escapes and repeated keys, is shorter than the text printed for it, and one that is as long
    differs from it only in the case of letters (of the hexadecimal digits of escapes) *)
Lemma C75_shortest_pf : forall (F : Floats) (t : bytes) (v : data), from_json t = Ok v -> good (fun _ => False) v ->
  len (to_json v) <= len t /\ (len t = len (to_json v) -> map lower t = map lower (to_json v)).
Proof.
  intros F t v E G. destruct (C71_value_pf F t) as [R _]. apply R in E as (j & (w1 & u & w2 & -> & _ & V & _) & Sm). rewrite <- (same_print (fun _ => False) (fun _ h => h) j v Sm G). apply (proj1 (grammar_short F)) in V. apply upto_pad_l, upto_pad_r. exact V.
Qed.
(** two layouts and escapes of one value: the printed text is the shortest, and the only one of its length but for the case of [\u001F] *)
Lemma C75_shortest_ex_pf : forall F : Floats, let v := VObj [(s2b "a", VArr [VStr [13; 31; 65]; VInt (-7)])] in
  good (fun _ => False) v /\ from_json (s2b "{""a"":0, ""a"" : [""\r\u001F\u0041"", -7] }") = Ok v /\ from_json (s2b "{""a"":[""\r\u001FA"",-7]}") = Ok v /\
  to_json v = s2b "{""a"":[""\r\u001fA"",-7]}".
Proof.
  intros F v. split; [|repeat split; vm_compute; reflexivity]. constructor; [repeat constructor; cbn; intuition discriminate|]. intros k w [E|[]]. injection E as <- <-. constructor. intros w [<-|[<-|[]]]; constructor. Lia.lia.
Qed.
(** C75: the printed text is a text of the JSON grammar, standing for the value, that nests exactly as deep as the value - for values of any depth *)
Lemma C75_grammatical_pf : forall (F : Floats) (v : data), good (fun t => float_text t /\ In 46 t /\ float_of_text t = Some t) v ->
  (exists j, jtext (N.to_nat (depth v)) (to_json v) j /\ same j v) /\ (forall d j, jtext d (to_json v) j -> (N.to_nat (depth v) <= d)%nat).
Proof.
  intros F v G. assert (R : forall limit, depth v < limit -> json_read_depth limit (to_json v) = Some (tree v)).
  { intros limit L. apply (read_back (F := F) (fun t => float_text t /\ In 46 t /\ float_of_text t = Some t) v limit); [intros ? [? [? ?]]; split; assumption|exact G|exact L]. }
  split.
  - exists (tree v). pose proof (R (depth v + 1) ltac:(lia)) as E. split.
    + apply json_read_iff in E; [|lia]. replace (depth v + 1 - 1) with (depth v) in E by lia. exact E.
    + destruct (json_read_jok (depth v + 1) (to_json v) (tree v) ltac:(lia) E) as [W _]. eapply (import_same _ _ W). eapply import_tree; [|exact G]. cbn. tauto.
  - intros d j Hj. replace d with (N.to_nat (N.of_nat d + 1 - 1)) in Hj by lia. apply json_read_iff in Hj; [|lia]. destruct (json_read_jok (N.of_nat d + 1) (to_json v) j ltac:(lia) Hj) as [W D].
    assert (j = tree v). { pose proof (R (depth v + N.of_nat d + 1) ltac:(lia)) as E. pose proof (json_read_mono (N.of_nat d + 1) (depth v + N.of_nat d + 1) (to_json v) j ltac:(lia) Hj). congruence. }
    subst j. rewrite depth_tree in D. lia.
Qed.
