From Verif Require Import Base StdStr Data Json DataDefs.
From Verif Require Import BaseFacts StdStrFacts DataFacts.

(** ** strings *)
Lemma escape_control c : c < 32 -> exists e, escape_char c = 92 :: e /\ forall r, read_escape (e ++ r) = Some ([c], r).
Proof.
  intros H. destruct c as [|p]; [eexists; split; [reflexivity|reflexivity]|].
  do 5 (destruct p as [p|p|]; try (exfalso; lia); try (eexists; split; [reflexivity|reflexivity])).
Qed.
Lemma read_string_escaped s : forall f r, (length s < f)%nat -> read_string f (flat_map escape_char s ++ 34 :: r) = Some (s, r).
Proof.
  induction s as [|c s IH]; intros f r Hf; (destruct f as [|f]; [inversion Hf|]).
  - reflexivity.
  - cbn [flat_map]. rewrite <- app_assoc. set (q := flat_map escape_char s ++ 34 :: r). cbn in Hf.
    assert (X : read_string f q = Some (s, r)) by (apply IH; Lia.lia).
    destruct (N.lt_ge_cases c 32) as [L|L].
    + destruct (escape_control c L) as [e [Ee R]]. rewrite Ee. cbn [app read_string]. change (92 =? 34) with false. change (92 =? 92) with true. cbv iota.
      rewrite R, X. reflexivity.
    + unfold escape_char. destruct (N.eqb_spec c 34) as [->|N1]; [cbn [app read_string]; change (92 =? 34) with false; change (92 =? 92) with true; cbv iota; cbn [read_escape]; rewrite X; reflexivity|].
      destruct (N.eqb_spec c 92) as [->|N2]; [cbn [app read_string]; change (92 =? 34) with false; change (92 =? 92) with true; cbv iota; cbn [read_escape]; rewrite X; reflexivity|].
      replace (c =? 8) with false by lia. replace (c =? 9) with false by lia. replace (c =? 10) with false by lia. replace (c =? 12) with false by lia.
      replace (c =? 13) with false by lia. replace (c <? 32) with false by lia. cbn [app read_string].
      replace (c =? 34) with false by lia. replace (c =? 92) with false by lia. replace (c <? 32) with false by lia. rewrite X. reflexivity.
Qed.
Lemma escape_len s : (length s <= length (flat_map escape_char s))%nat.
Proof.
  induction s as [|c s IH]; cbn; [Lia.lia|]. rewrite app_length. assert (1 <= length (escape_char c))%nat; [|Lia.lia].
  unfold escape_char. repeat match goal with |- context [if ?b then _ else _] => destruct b end; cbn [length app]; rewrite ?app_length; cbn; Lia.lia.
Qed.
Lemma read_str_escaped s r : read_str (flat_map escape_char s ++ 34 :: r) = Some (s, r).
Proof. apply read_string_escaped. rewrite app_length. pose proof (escape_len s). cbn. Lia.lia. Qed.

(** ** numbers *)
Definition num_stop (r : bytes) : Prop := match r with [] => True | c :: _ => ~ (48 <= c <= 57) /\ c <> 46 /\ c <> 101 /\ c <> 69 end.
Definition no_digit (r : bytes) : Prop := match r with [] => True | c :: _ => ~ (48 <= c <= 57) end.
Lemma num_stop_digit r : num_stop r -> no_digit r.
Proof. destruct r; cbn; tauto. Qed.
Lemma span_digits_app d r : (forall c, In c d -> digit c) -> no_digit r -> span_digits (d ++ r) = (d, r).
Proof.
  intros Hd Hr. induction d as [|c d IH].
  - destruct r as [|c r]; [reflexivity|]. cbn in *. unfold is_digit. replace ((48 <=? c) && (c <=? 57)) with false by lia. reflexivity.
  - cbn [app span_digits]. pose proof (Hd c (or_introl eq_refl)) as Hc. unfold digit in Hc. unfold is_digit. replace ((48 <=? c) && (c <=? 57)) with true by lia.
    rewrite IH by (intros; apply Hd; right; auto). reflexivity.
Qed.
Lemma span_digits_inv s d r : span_digits s = (d, r) -> s = d ++ r /\ (forall c, In c d -> digit c) /\ no_digit r.
Proof.
  revert d r. induction s as [|c s IH]; cbn; intros d r H.
  - injection H as <- <-. repeat split; intros; contradiction.
  - unfold is_digit in H. destruct ((48 <=? c) && (c <=? 57)) eqn:E.
    + destruct (span_digits s) as [d' t] eqn:Es. injection H as <- <-. destruct (IH _ _ eq_refl) as [-> [A B]]. split; [reflexivity|]. split; [|auto].
      intros x [<-|I]; [unfold digit; lia|auto].
    + injection H as <- <-. cbn. split; [reflexivity|]. split; [intros x []|lia].
Qed.
Lemma match46 (A : Type) (f : bytes -> A) (g : A) s : (match s with [] => True | c :: _ => c <> 46 end) -> match s with 46 :: r => f r | _ => g end = g.
Proof. destruct s as [|c s]; [reflexivity|]. intros H. destruct c as [|p]; [reflexivity|]. do 6 (destruct p as [p|p|]; try reflexivity; try congruence). Qed.
Lemma read_frac_none s : (match s with [] => True | c :: _ => c <> 46 end) -> read_frac s = Some ([], s).
Proof. intros H. unfold read_frac. apply match46. auto. Qed.
Lemma read_frac_some f r : f <> [] -> (forall c, In c f -> digit c) -> no_digit r -> read_frac (46 :: f ++ r) = Some (46 :: f, r).
Proof. intros Hf Hd Hr. cbn [read_frac]. rewrite span_digits_app by auto. destruct f; [congruence|reflexivity]. Qed.
Lemma read_exp_none s : (match s with [] => True | c :: _ => c <> 101 /\ c <> 69 end) -> read_exp s = Some ([], s).
Proof. destruct s as [|c s]; [reflexivity|]. intros [H1 H2]. cbn [read_exp]. replace (c =? 101) with false by lia. replace (c =? 69) with false by lia. reflexivity. Qed.
Lemma sign_digit (x : bytes) r : x <> [] -> (forall c, In c x -> digit c) ->
  match x ++ r with 43 :: r' => ([43], r') | 45 :: r' => ([45], r') | _ => ([], x ++ r) end = (([], x ++ r) : bytes * bytes).
Proof.
  destruct x as [|c x]; [congruence|]. intros _ H. pose proof (H c (or_introl eq_refl)) as Hc. unfold digit in Hc. cbn [app].
  destruct c as [|p]; [reflexivity|]. do 6 (destruct p as [p|p|]; try reflexivity; try (exfalso; lia)).
Qed.
Lemma read_exp_some e s x r : (e = 101 \/ e = 69) -> (s = [] \/ s = [43] \/ s = [45]) -> x <> [] -> (forall c, In c x -> digit c) -> no_digit r ->
  read_exp (e :: (s ++ x) ++ r) = Some (e :: s ++ x, r).
Proof.
  intros He Hs Hx Hd Hr. cbn [read_exp]. replace ((e =? 101) || (e =? 69)) with true by lia. rewrite <- app_assoc.
  destruct Hs as [->|[->| ->]]; cbn [app].
  - rewrite sign_digit by auto. rewrite span_digits_app by auto. destruct x; [congruence|]. reflexivity.
  - rewrite span_digits_app by auto. destruct x; [congruence|]. reflexivity.
  - rewrite span_digits_app by auto. destruct x; [congruence|]. reflexivity.
Qed.

Section F.
Context `{F : Floats}.
Lemma int_part_lead c d : int_part (c :: d) -> (c =? 48) && negb (len d =? 0) = false.
Proof.
  intros [_ [_ H]]. destruct (N.eqb_spec c 48) as [->|]; [|reflexivity]. rewrite (H d eq_refl). reflexivity.
Qed.
Lemma read_number_int neg d r : int_part d -> num_stop r ->
  read_number neg (d ++ r) =
    if neg then
      if (dec_value d =? 0) || (2 ^ 63 <? dec_value d) then match read_float (45 :: d) with Some x => Some (x, r) | None => None end
      else Some (JNeg (- Z.of_N (dec_value d)), r)
    else if dec_value d <? 2 ^ 64 then Some (JPos (dec_value d), r)
    else match read_float d with Some x => Some (x, r) | None => None end.
Proof.
  intros I S. unfold read_number. pose proof I as [Ne [Hd _]]. rewrite span_digits_app by (auto using num_stop_digit). destruct d as [|c d]; [congruence|].
  rewrite (int_part_lead _ _ I). rewrite read_frac_none by (destruct r; cbn in *; tauto). rewrite read_exp_none by (destruct r; cbn in *; tauto). destruct neg; reflexivity.
Qed.
Lemma read_number_float neg d frac exp r : int_part d ->
    (frac = [] \/ exists f, frac = 46 :: f /\ f <> [] /\ forall c, In c f -> digit c) ->
    (exp = [] \/ exists e s x, exp = e :: s ++ x /\ (e = 101 \/ e = 69) /\ (s = [] \/ s = [43] \/ s = [45]) /\ x <> [] /\ forall c, In c x -> digit c) ->
    (frac <> [] \/ exp <> []) -> num_stop r ->
  read_number neg (d ++ frac ++ exp ++ r) = match read_float ((if neg then [45] else []) ++ d ++ frac ++ exp) with Some x => Some (x, r) | None => None end.
Proof.
  intros I Hf He Hn S. unfold read_number. pose proof I as [Ne [Hd _]].
  assert (S1 : no_digit (exp ++ r)) by (destruct He as [->|[e [s [x [-> [E _]]]]]]; [apply num_stop_digit; auto|cbn; lia]).
  assert (S0 : no_digit (frac ++ exp ++ r)) by (destruct Hf as [->|[f [-> _]]]; [auto|cbn; lia]).
  rewrite span_digits_app by auto. destruct d as [|c d]; [congruence|]. rewrite (int_part_lead _ _ I).
  assert (Ef : read_frac (frac ++ exp ++ r) = Some (frac, exp ++ r)).
  { destruct Hf as [->|[f [-> [Nf Df]]]].
    - apply read_frac_none. destruct He as [->|[e [s [x [-> [E _]]]]]]; cbn [app]; [destruct r; cbn in *; tauto|lia].
    - apply read_frac_some; auto. }
  rewrite Ef.
  assert (Ee : read_exp (exp ++ r) = Some (exp, r)).
  { destruct He as [->|[e [s [x [-> [E [Es [Nx Dx]]]]]]]].
    - apply read_exp_none. destruct r; cbn in *; tauto.
    - apply read_exp_some; auto using num_stop_digit. }
  rewrite Ee. destruct frac as [|f0 frac]; [destruct exp as [|e0 exp]; [destruct Hn; congruence|]|]; reflexivity.
Qed.

(** ** the JSON tree of a value *)
Definition jint (i : Z) : jnum := if (i <? 0)%Z then JNeg i else JPos (Z.to_N i).
Fixpoint tree (v : data) : json :=
  match v with
  | VNull => JNull
  | VBool b => JBool b
  | VInt i => JNum (jint i)
  | VFloat t => JNum (JFlt t)
  | VStr s => JStr s
  | VArr a => JArr (map tree a)
  | VObj o => JObj (map (fun kv => (fst kv, tree (snd kv))) o)
  end.

Lemma to_dec_int_part n : int_part (to_dec n).
Proof.
  unfold to_dec. destruct (to_radix_spec 10 n) as [ds [E [Fd [V [Ne [H0 Hz]]]]]]; try lia. rewrite E. split; [destruct ds; [congruence|discriminate]|]. split.
  - intros c I. apply in_map_iff in I as [d [<- I]]. rewrite Forall_forall in Fd. specialize (Fd d I). unfold digit_char, digit. replace (d <? 10) with true by lia. lia.
  - intros r Er. destruct (N.eq_dec n 0) as [->|Nz].
    + rewrite (Hz eq_refl) in Er. cbn in Er. congruence.
    + destruct (H0 Nz) as [h [t [-> Hh]]]. cbn [map] in Er. injection Er as Eh _. exfalso. inversion Fd; subst. unfold digit_char in Eh. replace (h <? 10) with true in Eh by lia. lia.
Qed.
Lemma dec_value_to_dec n : dec_value (to_dec n) = n.
Proof. unfold dec_value, to_dec. rewrite digits_val_radix by lia. reflexivity. Qed.

(** first characters *)
Definition head_ok (c : N) : Prop := c <> 32 /\ c <> 10 /\ c <> 9 /\ c <> 13 /\ c <> 93 /\ c <> 44 /\ c <> 58 /\ c <> 125.
Lemma skip_ws_head c r : c <> 32 -> c <> 10 -> c <> 9 -> c <> 13 -> skip_ws (c :: r) = c :: r.
Proof.
  intros. cbn [skip_ws]. replace (c =? 32) with false by lia. replace (c =? 10) with false by lia. replace (c =? 9) with false by lia. replace (c =? 13) with false by lia. reflexivity.
Qed.
Lemma digit_head_ok c : digit c -> head_ok c.
Proof. unfold digit, head_ok. lia. Qed.
Lemma float_head t : float_text t -> exists c r, t = c :: r /\ (c = 45 \/ digit c).
Proof.
  intros [sign [d [fr [ex [-> [[-> | ->] [[Ne [Hd _]] _]]]]]]]; cbn [app]; [|eauto]. destruct d as [|c d]; [congruence|]. exists c. eexists. split; [reflexivity|]. right. apply Hd. left; auto.
Qed.
Lemma json_head (fl : bytes -> Prop) v : (forall t, fl t -> float_text t) -> good fl v -> exists c r, to_json v = c :: r /\ head_ok c.
Proof.
  intros Hfl G. destruct G; cbn [to_json].
  - exists 110, (s2b "ull"). split; [reflexivity|]. unfold head_ok; lia.
  - destruct b; [exists 116, (s2b "rue")|exists 102, (s2b "alse")]; (split; [reflexivity|]); unfold head_ok; lia.
  - unfold show_int. destruct (i <? 0)%Z; [eexists _, _; split; [reflexivity|unfold head_ok; lia]|].
    destruct (to_dec_int_part (Z.to_N i)) as [Ne [Hd _]]. destruct (to_dec (Z.to_N i)) as [|c r]; [congruence|]. exists c, r. split; auto. apply digit_head_ok, Hd. left; auto.
  - destruct (float_head t (Hfl t H)) as [c [r [-> Hc]]]. exists c, r. split; auto. destruct Hc as [->|Hc]; [unfold head_ok; lia|apply digit_head_ok; auto].
  - eexists _, _. split; [reflexivity|]. unfold head_ok; lia.
  - eexists _, _. split; [reflexivity|]. unfold head_ok; lia.
  - eexists _, _. split; [reflexivity|]. unfold head_ok; lia.
Qed.
(** ** reading back *)
Lemma tree_num_read f d text rest n : (exists c q, text = c :: q /\ (c = 45 \/ digit c)) ->
  (forall q, text = 45 :: q -> read_number true (q ++ rest) = Some (n, rest)) ->
  (forall c q, text = c :: q -> digit c -> read_number false (text ++ rest) = Some (n, rest)) ->
  read_value (S f) d (text ++ rest) = Some (JNum n, rest).
Proof.
  intros [c [q [E Hc]]] H1 H2. assert (Hw : skip_ws (text ++ rest) = text ++ rest).
  { rewrite E. cbn [app]. destruct Hc as [->|Hc]; apply skip_ws_head; unfold digit in *; lia. }
  cbn [read_value]. rewrite Hw. rewrite E at 1. cbn [app]. destruct Hc as [->|Hc].
  - change (45 =? 110) with false. change (45 =? 116) with false. change (45 =? 102) with false. change (45 =? 45) with true. cbv iota. rewrite (H1 q E). reflexivity.
  - unfold digit in Hc. replace (c =? 110) with false by lia. replace (c =? 116) with false by lia. replace (c =? 102) with false by lia. replace (c =? 45) with false by lia.
    unfold is_digit. replace ((48 <=? c) && (c <=? 57)) with true by lia. change (c :: q ++ rest) with ((c :: q) ++ rest). rewrite <- E. rewrite (H2 c q E) by (unfold digit; lia). reflexivity.
Qed.
Lemma read_int f d i rest : (- 2 ^ 63 <= i < 2 ^ 63)%Z -> num_stop rest -> read_value (S f) d (show_int i ++ rest) = Some (JNum (jint i), rest).
Proof.
  intros Hi S. pose proof (to_dec_int_part (Z.to_N i)) as P1. pose proof (to_dec_int_part (Z.to_N (- i))) as P2. unfold show_int, jint. destruct (Z.ltb_spec i 0) as [L|L].
  - apply tree_num_read.
    + eauto.
    + intros q [= <-]. rewrite read_number_int by auto. rewrite dec_value_to_dec. replace ((Z.to_N (- i) =? 0) || (2 ^ 63 <? Z.to_N (- i))) with false by (npow; lia).
      repeat f_equal. lia.
    + intros c q [= <- _] Hc. unfold digit in Hc. lia.
  - apply tree_num_read.
    + destruct P1 as [Ne [Hd _]]. destruct (to_dec (Z.to_N i)) as [|c q]; [congruence|]. exists c, q. split; auto. right. apply Hd. left; auto.
    + intros q E. exfalso. destruct P1 as [_ [Hd _]]. rewrite E in Hd. specialize (Hd 45 (or_introl eq_refl)). unfold digit in Hd. lia.
    + intros c q _ _. rewrite read_number_int by auto. rewrite dec_value_to_dec. replace (Z.to_N i <? 2 ^ 64) with true by (npow; lia). reflexivity.
Qed.
Lemma read_flt f d t rest : float_text t -> float_of_text t = Some t -> num_stop rest -> read_value (S f) d (t ++ rest) = Some (JNum (JFlt t), rest).
Proof.
  intros Ft Fo S. pose proof (float_head t Ft) as Hh. destruct Ft as [sign [dd [fr [ex [E [Hs [Hi [Hf [He Hn]]]]]]]]].
  assert (R : read_float t = Some (JFlt t)) by (unfold read_float; rewrite Fo; reflexivity).
  apply tree_num_read; auto.
  - intros q Eq. destruct Hs as [-> | ->].
    + exfalso. cbn [app] in E. destruct Hi as [Ne [Hd _]]. destruct dd as [|c dd]; [congruence|]. specialize (Hd c (or_introl eq_refl)). rewrite E in Eq. injection Eq as -> _. unfold digit in Hd. lia.
    + rewrite Eq in E. cbn [app] in E. injection E as ->. rewrite <- !app_assoc. rewrite read_number_float by auto. cbn [app]. rewrite <- Eq, R. reflexivity.
  - intros c q Eq Hc. destruct Hs as [-> | ->].
    + cbn [app] in E. rewrite E at 1. rewrite <- !app_assoc. rewrite read_number_float by auto. cbn [app]. rewrite <- E, R. reflexivity.
    + exfalso. rewrite E in Eq. injection Eq as <- _. unfold digit in Hc. lia.
Qed.
Lemma literal_ok t v r : literal t v (t ++ r) = Some (v, r).
Proof. unfold literal. rewrite (proj2 (starts_with_iff t (t ++ r))) by eauto. rewrite drop_app_exact by reflexivity. reflexivity. Qed.
Lemma read_head f d c r : head_ok c -> read_value (S f) d (c :: r) =
      (if c =? 110 then literal (s2b "ull") JNull r
      else if c =? 116 then literal (s2b "rue") (JBool true) r
      else if c =? 102 then literal (s2b "alse") (JBool false) r
      else if c =? 45 then match read_number true r with Some (n, t) => Some (JNum n, t) | None => None end
      else if is_digit c then match read_number false (c :: r) with Some (n, t) => Some (JNum n, t) | None => None end
      else if c =? 34 then match read_str r with Some (x, t) => Some (JStr x, t) | None => None end
      else if c =? 91 then
        if d <=? 1 then None
        else match skip_ws r with
             | 93 :: t => Some (JArr [], t)
             | _ => match read_elems f (d - 1) r with Some (a, t) => Some (JArr a, t) | None => None end
             end
      else if c =? 123 then
        if d <=? 1 then None
        else match skip_ws r with
             | 125 :: t => Some (JObj [], t)
             | _ => match read_members f (d - 1) r [] with Some (o, t) => Some (JObj o, t) | None => None end
             end
      else None).
Proof. intros H. cbn [read_value]. unfold head_ok in H. rewrite skip_ws_head by tauto. reflexivity. Qed.
Lemma match93 (A : Type) (f : bytes -> A) (g : A) s : hd 0 s <> 93 -> match s with 93 :: r => f r | _ => g end = g.
Proof. intros H. destruct s as [|c s]; [reflexivity|]. cbn [hd] in H. destruct c as [|p]; [reflexivity|]. do 7 (destruct p as [p|p|]; try reflexivity; try congruence). Qed.
Lemma match125 (A : Type) (f : bytes -> A) (g : A) s : hd 0 s <> 125 -> match s with 125 :: r => f r | _ => g end = g.
Proof. intros H. destruct s as [|c s]; [reflexivity|]. cbn [hd] in H. destruct c as [|p]; [reflexivity|]. do 7 (destruct p as [p|p|]; try reflexivity; try congruence). Qed.

Definition reads (v : data) : Prop := forall f d rest, (2 * length (to_json v) <= f)%nat -> depth v < d -> num_stop rest ->
  read_value f d (to_json v ++ rest) = Some (tree v, rest).

Lemma reads_elems a : a <> [] -> Forall reads a -> (forall v, In v a -> exists c r, to_json v = c :: r /\ head_ok c) -> forall f d rest,
  (2 * length (join [44%N] (map to_json a)) + 1 <= f)%nat -> (forall v, In v a -> depth v < d) ->
  read_elems f d (join [44] (map to_json a) ++ 93 :: rest) = Some (map tree a, rest).
Proof.
  induction a as [|v a IH]; [congruence|]. intros _ Hr Hh f d rest Hf Hd. inversion Hr as [|? ? Rv Ra]; subst. destruct f as [|f]; [Lia.lia|].
  destruct a as [|w a].
  - cbn [map join] in *. cbn [read_elems]. rewrite Rv; [|Lia.lia|apply Hd; left; auto|cbn; lia]. rewrite skip_ws_head by lia. reflexivity.
  - cbn [map] in *. change (join [44] (to_json v :: to_json w :: map to_json a)) with (to_json v ++ [44] ++ join [44] (to_json w :: map to_json a)) in *.
    rewrite !app_length in Hf. cbn [length] in Hf. rewrite <- !app_assoc. cbn [app read_elems].
    rewrite Rv; [|Lia.lia|apply Hd; left; auto|cbn; lia]. rewrite skip_ws_head by lia.
    rewrite IH; [reflexivity|discriminate|auto|intros; apply Hh; right; auto|Lia.lia|intros; apply Hd; right; auto].
Qed.
Definition member (kv : bytes * data) : bytes := json_string (fst kv) ++ [58] ++ to_json (snd kv).
Lemma reads_members o : o <> [] -> Forall (fun kv => reads (snd kv)) o -> forall f d rest acc,
  (2 * length (join [44%N] (map member o)) + 1 <= f)%nat -> (forall k v, In (k, v) o -> depth v < d) -> NoDup (map fst acc ++ map fst o) ->
  read_members f d (join [44] (map member o) ++ 125 :: rest) acc = Some (acc ++ map (fun kv => (fst kv, tree (snd kv))) o, rest).
Proof.
  induction o as [|[k v] o IH]; [congruence|]. intros _ Hr f d rest acc Hf Hd Hn. inversion Hr as [|? ? Rv Ra]; subst. cbn [snd] in Rv. destruct f as [|f]; [Lia.lia|].
  assert (Nk : ~ In k (map fst acc)).
  { intros I. cbn [map fst] in Hn. apply NoDup_remove_2 in Hn. apply Hn. apply in_or_app. auto. }
  assert (Hm : forall rest', member (k, v) ++ rest' = 34 :: flat_map escape_char k ++ 34 :: 58 :: to_json v ++ rest').
  { intros rest'. unfold member, json_string. cbn [fst snd]. rewrite <- !app_assoc. reflexivity. }
  assert (Lm : (length (to_json v) <= length (member (k, v)) - 3 /\ 3 <= length (member (k, v)))%nat).
  { unfold member, json_string. cbn [fst snd]. rewrite !app_length. cbn. Lia.lia. }
  destruct o as [|[k2 v2] o].
  - cbn [map join] in *. rewrite Hm. cbn [read_members]. rewrite skip_ws_head by lia. rewrite read_str_escaped. rewrite skip_ws_head by lia.
    rewrite Rv; [|Lia.lia|eapply Hd; left; auto|cbn; lia]. rewrite skip_ws_head by lia. rewrite map_insert_new by auto. reflexivity.
  - change (join [44] (map member ((k, v) :: (k2, v2) :: o))) with (member (k, v) ++ [44] ++ join [44] (map member ((k2, v2) :: o))) in *.
    rewrite !app_length in Hf. cbn [length] in Hf. rewrite <- !app_assoc, Hm. cbn [app read_members]. rewrite skip_ws_head by lia. rewrite read_str_escaped. rewrite skip_ws_head by lia.
    rewrite Rv; [|Lia.lia|eapply Hd; left; auto|cbn; lia]. rewrite skip_ws_head by lia. rewrite map_insert_new by auto.
    rewrite IH; [rewrite <- app_assoc; reflexivity|discriminate|auto|Lia.lia|intros; eapply Hd; right; eauto|].
    rewrite map_app, <- app_assoc. exact Hn.
Qed.
Lemma depth_elem (l : list N) x : In x l -> x <= fold_right N.max 0 l.
Proof. induction l as [|y l IH]; cbn; [tauto|]. intros [->|I]; [lia|]. apply IH in I. lia. Qed.

Theorem good_reads (fl : bytes -> Prop) v : (forall t, fl t -> float_text t /\ float_of_text t = Some t) -> good fl v -> reads v.
Proof.
  intros Hfl G. assert (Hh : forall v, good fl v -> exists c r, to_json v = c :: r /\ head_ok c) by (intros w Gw; eapply json_head; [|exact Gw]; intros t Ht; apply Hfl; auto).
  revert G. induction v as [|b|i|t|s|a IHa|o IHo] using value_ind'; intros G f d rest Hf Hd Hs; cbn [to_json tree] in *.
  - destruct f as [|f]; [vm_compute in Hf; Lia.lia|]. change (s2b "null" ++ rest) with (110 :: s2b "ull" ++ rest). rewrite read_head by (unfold head_ok; lia).
    change (110 =? 110) with true. cbv iota. apply literal_ok.
  - destruct f as [|f]; [destruct b; vm_compute in Hf; Lia.lia|]. destruct b.
    + change (s2b "true" ++ rest) with (116 :: s2b "rue" ++ rest). rewrite read_head by (unfold head_ok; lia). change (116 =? 110) with false. change (116 =? 116) with true. cbv iota. apply literal_ok.
    + change (s2b "false" ++ rest) with (102 :: s2b "alse" ++ rest). rewrite read_head by (unfold head_ok; lia). change (102 =? 110) with false. change (102 =? 116) with false. change (102 =? 102) with true. cbv iota. apply literal_ok.
  - inversion G; subst. destruct f as [|f]; [|apply read_int; auto]. exfalso. unfold show_int in Hf. destruct (i <? 0)%Z; [cbn in Hf; Lia.lia|].
    destruct (to_dec_int_part (Z.to_N i)) as [Ne _]. destruct (to_dec (Z.to_N i)); [congruence|cbn in Hf; Lia.lia].
  - inversion G; subst. destruct (Hfl t H0) as [A B]. destruct f as [|f]; [|apply read_flt; auto]. exfalso. destruct (float_head t A) as [c [r [-> _]]]. cbn in Hf. Lia.lia.
  - destruct f as [|f]; [exfalso; unfold json_string in Hf; rewrite !app_length in Hf; cbn in Hf; Lia.lia|].
    unfold json_string. rewrite <- !app_assoc. cbn [app]. rewrite read_head by (unfold head_ok; lia).
    change (34 =? 110) with false. change (34 =? 116) with false. change (34 =? 102) with false. change (34 =? 45) with false. change (is_digit 34) with false. change (34 =? 34) with true. cbv iota.
    rewrite read_str_escaped. reflexivity.
  - inversion G as [| | | | |? Ga|]; subst. rewrite !app_length in Hf. cbn [length] in Hf. destruct f as [|f]; [Lia.lia|]. cbn [depth] in Hd.
    rewrite <- !app_assoc. cbn [app]. rewrite read_head by (unfold head_ok; lia).
    change (91 =? 110) with false. change (91 =? 116) with false. change (91 =? 102) with false. change (91 =? 45) with false. change (is_digit 91) with false. change (91 =? 34) with false. change (91 =? 91) with true. cbv iota.
    replace (d <=? 1) with false by lia. destruct a as [|v a].
    + cbn [map join app]. rewrite skip_ws_head by lia. reflexivity.
    + assert (X : exists c r, join [44] (map to_json (v :: a)) ++ 93 :: rest = c :: r /\ head_ok c).
      { destruct (Hh v (Ga v (or_introl eq_refl))) as [c [r [E Hc]]]. exists c. destruct a as [|w a]; cbn [map join].
        - exists (r ++ 93 :: rest). rewrite E. auto.
        - exists ((r ++ [44] ++ join [44] (to_json w :: map to_json a)) ++ 93 :: rest). change (join [44] (to_json v :: to_json w :: map to_json a)) with (to_json v ++ [44] ++ join [44] (to_json w :: map to_json a)).
          rewrite E. auto. }
      destruct X as [c [r [E Hc]]]. rewrite E. rewrite skip_ws_head by (unfold head_ok in Hc; tauto). etransitivity; [apply (match93 _ (fun t => Some (JArr [], t)) _ (c :: r)); cbn [hd]; unfold head_ok in Hc; tauto|]. rewrite <- E.
      rewrite reads_elems; [reflexivity|discriminate| | | |].
      * apply Forall_forall. intros w I. rewrite Forall_forall in IHa. apply IHa; auto.
      * intros w I. apply Hh, Ga, I.
      * Lia.lia.
      * intros w I. pose proof (depth_elem (map depth (v :: a)) (depth w) (in_map _ _ _ I)). lia.
  - change (map (fun kv : bytes * data => json_string (fst kv) ++ [58] ++ to_json (snd kv)) o) with (map member o) in *. inversion G as [| | | | | |? Gn Go]; subst. rewrite !app_length in Hf. cbn [length] in Hf. destruct f as [|f]; [Lia.lia|]. cbn [depth] in Hd.
    rewrite <- !app_assoc. cbn [app]. rewrite read_head by (unfold head_ok; lia).
    change (123 =? 110) with false. change (123 =? 116) with false. change (123 =? 102) with false. change (123 =? 45) with false. change (is_digit 123) with false. change (123 =? 34) with false. change (123 =? 91) with false. change (123 =? 123) with true. cbv iota.
    replace (d <=? 1) with false by lia. destruct o as [|[k v] o].
    + cbn [map join app]. rewrite skip_ws_head by lia. reflexivity.
    + assert (X : exists r, join [44] (map member ((k, v) :: o)) ++ 125 :: rest = 34 :: r).
      { destruct o as [|w o]; eexists; reflexivity. }
      destruct X as [r E]. rewrite E. rewrite skip_ws_head by lia. etransitivity; [apply (match125 _ (fun t => Some (JObj [], t)) _ (34 :: r)); cbn [hd]; lia|]. rewrite <- E.
      rewrite reads_members; [reflexivity|discriminate| | | |].
      * apply Forall_forall. intros [k' w] I. rewrite Forall_forall in IHo. apply (IHo (k', w)); auto. apply (Go k'); auto.
      * Lia.lia.
      * intros k' w I. pose proof (depth_elem (map (fun kv => depth (snd kv)) ((k, v) :: o)) (depth w) (in_map (fun kv => depth (snd kv)) _ _ I)). lia.
      * exact Gn.
Qed.
Lemma read_back (fl : bytes -> Prop) v limit : (forall t, fl t -> float_text t /\ float_of_text t = Some t) -> good fl v -> depth v < limit -> json_read_depth limit (to_json v) = Some (tree v).
Proof.
  intros Hfl G Hd. unfold json_read_depth. pose proof (good_reads fl v Hfl G (S (2 * length (to_json v))) limit [] ltac:(Lia.lia) Hd I) as R. rewrite app_nil_r in R. rewrite R. reflexivity.
Qed.
End F.
